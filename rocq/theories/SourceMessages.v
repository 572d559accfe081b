(** * message/messages.gen.go as terms of GoLang.v

    Written by tools/go_source.py, which see. *)
From Coq Require Import String.
From Verif Require Import GoBase GoLang.
Local Open Scope string_scope.
Local Open Scope list_scope.
Local Open Scope Z_scope.

(** message/messages.gen.go:32 *)
Definition go_ProduceRequest_Size : func := mkFunc [("t", GNamed "ProduceRequest"); ("version", GInt I16)] [GInt I32]
  [SVar "sz" (Some (GInt I32)) None;
   SIf [] (EBin Ge (EVar "version") (EInt 3))
     [SOp (EVar "sz") Add (ECall "sizeof.String" [(EField (EVar "t") "TransactionalId")])]
     [];
   SOp (EVar "sz") Add (EGlobal "sizeof.Int16");
   SOp (EVar "sz") Add (EGlobal "sizeof.Int32");
   SOp (EVar "sz") Add (EGlobal "sizeof.ArrayLength");
   SFor [SDefine ["i"] [(EBin Sub (ELen (EField (EVar "t") "Topics")) (EInt 1))]] (EBin Ge (EVar "i") (EInt 0)) [SOp (EVar "i") Sub (EInt 1)]
     [SOp (EVar "sz") Add (EMethod (EIndex (EField (EVar "t") "Topics") (EVar "i")) "Size" [(EVar "version")])];
   SReturn [(EVar "sz")]].
(** message/messages.gen.go:47 *)
Definition go_ProduceRequest_Encode : func := mkFunc [("t", GNamed "ProduceRequest"); ("e", GPtr (GNamed "Encoder")); ("version", GInt I16)] []
  [SIf [] (EBin Ge (EVar "version") (EInt 3))
     [SExpr (EMethod (EVar "e") "PutString" [(EField (EVar "t") "TransactionalId")])]
     [];
   SExpr (EMethod (EVar "e") "PutInt16" [(EField (EVar "t") "Acks")]);
   SExpr (EMethod (EVar "e") "PutInt32" [(EField (EVar "t") "TimeoutMs")]);
   SDefine ["len3"] [(ELen (EField (EVar "t") "Topics"))];
   SExpr (EMethod (EVar "e") "PutArrayLength" [(EVar "len3")]);
   SFor [SDefine ["i"] [(EInt 0)]] (EBin Lt (EVar "i") (EVar "len3")) [SOp (EVar "i") Add (EInt 1)]
     [SExpr (EMethod (EIndex (EField (EVar "t") "Topics") (EVar "i")) "Encode" [(EVar "e"); (EVar "version")])]].
(** message/messages.gen.go:62 *)
Definition go_ProduceRequest_Decode : func := mkFunc [("t", GPtr (GNamed "ProduceRequest")); ("d", GPtr (GNamed "Decoder")); ("version", GInt I16)] [GNamed "error"]
  [SVar "err" (Some (GNamed "error")) None;
   SIf [] (EBin Ge (EVar "version") (EInt 3))
     [SAssign [(EField (EVar "t") "TransactionalId"); (EVar "err")] [(EMethod (EVar "d") "String" [])];
      SIf [] (EBin Ne (EVar "err") ENil)
       [SReturn [(EVar "err")]]
       []]
     [];
   SAssign [(EField (EVar "t") "Acks"); (EVar "err")] [(EMethod (EVar "d") "Int16" [])];
   SIf [] (EBin Ne (EVar "err") ENil)
     [SReturn [(EVar "err")]]
     [];
   SAssign [(EField (EVar "t") "TimeoutMs"); (EVar "err")] [(EMethod (EVar "d") "Int32" [])];
   SIf [] (EBin Ne (EVar "err") ENil)
     [SReturn [(EVar "err")]]
     [];
   SIf [SDefine ["n"; "err"] [(EMethod (EVar "d") "ArrayLength" [])]] (EBin Ne (EVar "err") ENil)
     [SReturn [(EVar "err")]]
     [SIf [] (EBin Ge (EVar "n") (EInt 0))
       [SAssign [(EField (EVar "t") "Topics")] [(EMake (GSlice (GNamed "TopicProduceData0")) (EVar "n"))];
        SFor [SDefine ["i"] [(EInt 0)]] (EBin Lt (EVar "i") (EVar "n")) [SOp (EVar "i") Add (EInt 1)]
         [SVar "item" (Some (GNamed "TopicProduceData0")) None;
          SIf [SDefine ["err"] [(EMethod (EAddr (EVar "item")) "Decode" [(EVar "d"); (EVar "version")])]] (EBin Ne (EVar "err") ENil)
           [SReturn [(EVar "err")]]
           [];
          SAssign [(EIndex (EField (EVar "t") "Topics") (EVar "i"))] [(EVar "item")]]]
       []];
   SReturn [(EVar "err")]].
(** message/messages.gen.go:100 *)
Definition go_TopicProduceData0_Size : func := mkFunc [("t", GNamed "TopicProduceData0"); ("version", GInt I16)] [GInt I32]
  [SVar "sz" (Some (GInt I32)) None;
   SOp (EVar "sz") Add (ECall "sizeof.String" [(EField (EVar "t") "Name")]);
   SOp (EVar "sz") Add (EGlobal "sizeof.ArrayLength");
   SFor [SDefine ["i"] [(EBin Sub (ELen (EField (EVar "t") "Partitions")) (EInt 1))]] (EBin Ge (EVar "i") (EInt 0)) [SOp (EVar "i") Sub (EInt 1)]
     [SOp (EVar "sz") Add (EMethod (EIndex (EField (EVar "t") "Partitions") (EVar "i")) "Size" [(EVar "version")])];
   SReturn [(EVar "sz")]].
(** message/messages.gen.go:111 *)
Definition go_TopicProduceData0_Encode : func := mkFunc [("t", GNamed "TopicProduceData0"); ("e", GPtr (GNamed "Encoder")); ("version", GInt I16)] []
  [SExpr (EMethod (EVar "e") "PutString" [(EField (EVar "t") "Name")]);
   SDefine ["len1"] [(ELen (EField (EVar "t") "Partitions"))];
   SExpr (EMethod (EVar "e") "PutArrayLength" [(EVar "len1")]);
   SFor [SDefine ["i"] [(EInt 0)]] (EBin Lt (EVar "i") (EVar "len1")) [SOp (EVar "i") Add (EInt 1)]
     [SExpr (EMethod (EIndex (EField (EVar "t") "Partitions") (EVar "i")) "Encode" [(EVar "e"); (EVar "version")])]].
(** message/messages.gen.go:122 *)
Definition go_TopicProduceData0_Decode : func := mkFunc [("t", GPtr (GNamed "TopicProduceData0")); ("d", GPtr (GNamed "Decoder")); ("version", GInt I16)] [GNamed "error"]
  [SVar "err" (Some (GNamed "error")) None;
   SAssign [(EField (EVar "t") "Name"); (EVar "err")] [(EMethod (EVar "d") "String" [])];
   SIf [] (EBin Ne (EVar "err") ENil)
     [SReturn [(EVar "err")]]
     [];
   SIf [SDefine ["n"; "err"] [(EMethod (EVar "d") "ArrayLength" [])]] (EBin Ne (EVar "err") ENil)
     [SReturn [(EVar "err")]]
     [SIf [] (EBin Ge (EVar "n") (EInt 0))
       [SAssign [(EField (EVar "t") "Partitions")] [(EMake (GSlice (GNamed "PartitionProduceData0")) (EVar "n"))];
        SFor [SDefine ["i"] [(EInt 0)]] (EBin Lt (EVar "i") (EVar "n")) [SOp (EVar "i") Add (EInt 1)]
         [SVar "item" (Some (GNamed "PartitionProduceData0")) None;
          SIf [SDefine ["err"] [(EMethod (EAddr (EVar "item")) "Decode" [(EVar "d"); (EVar "version")])]] (EBin Ne (EVar "err") ENil)
           [SReturn [(EVar "err")]]
           [];
          SAssign [(EIndex (EField (EVar "t") "Partitions") (EVar "i"))] [(EVar "item")]]]
       []];
   SReturn [(EVar "err")]].
(** message/messages.gen.go:150 *)
Definition go_PartitionProduceData0_Size : func := mkFunc [("t", GNamed "PartitionProduceData0"); ("version", GInt I16)] [GInt I32]
  [SVar "sz" (Some (GInt I32)) None;
   SOp (EVar "sz") Add (EGlobal "sizeof.Int32");
   SOp (EVar "sz") Add (ECall "sizeof.Bytes" [(EField (EVar "t") "Records")]);
   SReturn [(EVar "sz")]].
(** message/messages.gen.go:158 *)
Definition go_PartitionProduceData0_Encode : func := mkFunc [("t", GNamed "PartitionProduceData0"); ("e", GPtr (GNamed "Encoder")); ("version", GInt I16)] []
  [SExpr (EMethod (EVar "e") "PutInt32" [(EField (EVar "t") "PartitionIndex")]);
   SExpr (EMethod (EVar "e") "PutBytes" [(EField (EVar "t") "Records")])].
(** message/messages.gen.go:164 *)
Definition go_PartitionProduceData0_Decode : func := mkFunc [("t", GPtr (GNamed "PartitionProduceData0")); ("d", GPtr (GNamed "Decoder")); ("version", GInt I16)] [GNamed "error"]
  [SVar "err" (Some (GNamed "error")) None;
   SAssign [(EField (EVar "t") "PartitionIndex"); (EVar "err")] [(EMethod (EVar "d") "Int32" [])];
   SIf [] (EBin Ne (EVar "err") ENil)
     [SReturn [(EVar "err")]]
     [];
   SAssign [(EField (EVar "t") "Records"); (EVar "err")] [(EMethod (EVar "d") "Bytes" [])];
   SIf [] (EBin Ne (EVar "err") ENil)
     [SReturn [(EVar "err")]]
     [];
   SReturn [(EVar "err")]].
(** message/messages.gen.go:184 *)
Definition go_ProduceResponse_Size : func := mkFunc [("t", GNamed "ProduceResponse"); ("version", GInt I16)] [GInt I32]
  [SVar "sz" (Some (GInt I32)) None;
   SOp (EVar "sz") Add (EGlobal "sizeof.ArrayLength");
   SFor [SDefine ["i"] [(EBin Sub (ELen (EField (EVar "t") "Responses")) (EInt 1))]] (EBin Ge (EVar "i") (EInt 0)) [SOp (EVar "i") Sub (EInt 1)]
     [SOp (EVar "sz") Add (EMethod (EIndex (EField (EVar "t") "Responses") (EVar "i")) "Size" [(EVar "version")])];
   SIf [] (EBin Ge (EVar "version") (EInt 1))
     [SOp (EVar "sz") Add (EGlobal "sizeof.Int32")]
     [];
   SReturn [(EVar "sz")]].
(** message/messages.gen.go:197 *)
Definition go_ProduceResponse_Encode : func := mkFunc [("t", GNamed "ProduceResponse"); ("e", GPtr (GNamed "Encoder")); ("version", GInt I16)] []
  [SDefine ["len0"] [(ELen (EField (EVar "t") "Responses"))];
   SExpr (EMethod (EVar "e") "PutArrayLength" [(EVar "len0")]);
   SFor [SDefine ["i"] [(EInt 0)]] (EBin Lt (EVar "i") (EVar "len0")) [SOp (EVar "i") Add (EInt 1)]
     [SExpr (EMethod (EIndex (EField (EVar "t") "Responses") (EVar "i")) "Encode" [(EVar "e"); (EVar "version")])];
   SIf [] (EBin Ge (EVar "version") (EInt 1))
     [SExpr (EMethod (EVar "e") "PutInt32" [(EField (EVar "t") "ThrottleTimeMs")])]
     []].
(** message/messages.gen.go:210 *)
Definition go_ProduceResponse_Decode : func := mkFunc [("t", GPtr (GNamed "ProduceResponse")); ("d", GPtr (GNamed "Decoder")); ("version", GInt I16)] [GNamed "error"]
  [SVar "err" (Some (GNamed "error")) None;
   SIf [SDefine ["n"; "err"] [(EMethod (EVar "d") "ArrayLength" [])]] (EBin Ne (EVar "err") ENil)
     [SReturn [(EVar "err")]]
     [SIf [] (EBin Ge (EVar "n") (EInt 0))
       [SAssign [(EField (EVar "t") "Responses")] [(EMake (GSlice (GNamed "TopicProduceResponse0")) (EVar "n"))];
        SFor [SDefine ["i"] [(EInt 0)]] (EBin Lt (EVar "i") (EVar "n")) [SOp (EVar "i") Add (EInt 1)]
         [SVar "item" (Some (GNamed "TopicProduceResponse0")) None;
          SIf [SDefine ["err"] [(EMethod (EAddr (EVar "item")) "Decode" [(EVar "d"); (EVar "version")])]] (EBin Ne (EVar "err") ENil)
           [SReturn [(EVar "err")]]
           [];
          SAssign [(EIndex (EField (EVar "t") "Responses") (EVar "i"))] [(EVar "item")]]]
       []];
   SIf [] (EBin Ge (EVar "version") (EInt 1))
     [SAssign [(EField (EVar "t") "ThrottleTimeMs"); (EVar "err")] [(EMethod (EVar "d") "Int32" [])];
      SIf [] (EBin Ne (EVar "err") ENil)
       [SReturn [(EVar "err")]]
       []]
     [];
   SReturn [(EVar "err")]].
(** message/messages.gen.go:240 *)
Definition go_TopicProduceResponse0_Size : func := mkFunc [("t", GNamed "TopicProduceResponse0"); ("version", GInt I16)] [GInt I32]
  [SVar "sz" (Some (GInt I32)) None;
   SOp (EVar "sz") Add (ECall "sizeof.String" [(EField (EVar "t") "Name")]);
   SOp (EVar "sz") Add (EGlobal "sizeof.ArrayLength");
   SFor [SDefine ["i"] [(EBin Sub (ELen (EField (EVar "t") "Partitions")) (EInt 1))]] (EBin Ge (EVar "i") (EInt 0)) [SOp (EVar "i") Sub (EInt 1)]
     [SOp (EVar "sz") Add (EMethod (EIndex (EField (EVar "t") "Partitions") (EVar "i")) "Size" [(EVar "version")])];
   SReturn [(EVar "sz")]].
(** message/messages.gen.go:251 *)
Definition go_TopicProduceResponse0_Encode : func := mkFunc [("t", GNamed "TopicProduceResponse0"); ("e", GPtr (GNamed "Encoder")); ("version", GInt I16)] []
  [SExpr (EMethod (EVar "e") "PutString" [(EField (EVar "t") "Name")]);
   SDefine ["len1"] [(ELen (EField (EVar "t") "Partitions"))];
   SExpr (EMethod (EVar "e") "PutArrayLength" [(EVar "len1")]);
   SFor [SDefine ["i"] [(EInt 0)]] (EBin Lt (EVar "i") (EVar "len1")) [SOp (EVar "i") Add (EInt 1)]
     [SExpr (EMethod (EIndex (EField (EVar "t") "Partitions") (EVar "i")) "Encode" [(EVar "e"); (EVar "version")])]].
(** message/messages.gen.go:262 *)
Definition go_TopicProduceResponse0_Decode : func := mkFunc [("t", GPtr (GNamed "TopicProduceResponse0")); ("d", GPtr (GNamed "Decoder")); ("version", GInt I16)] [GNamed "error"]
  [SVar "err" (Some (GNamed "error")) None;
   SAssign [(EField (EVar "t") "Name"); (EVar "err")] [(EMethod (EVar "d") "String" [])];
   SIf [] (EBin Ne (EVar "err") ENil)
     [SReturn [(EVar "err")]]
     [];
   SIf [SDefine ["n"; "err"] [(EMethod (EVar "d") "ArrayLength" [])]] (EBin Ne (EVar "err") ENil)
     [SReturn [(EVar "err")]]
     [SIf [] (EBin Ge (EVar "n") (EInt 0))
       [SAssign [(EField (EVar "t") "Partitions")] [(EMake (GSlice (GNamed "PartitionProduceResponse0")) (EVar "n"))];
        SFor [SDefine ["i"] [(EInt 0)]] (EBin Lt (EVar "i") (EVar "n")) [SOp (EVar "i") Add (EInt 1)]
         [SVar "item" (Some (GNamed "PartitionProduceResponse0")) None;
          SIf [SDefine ["err"] [(EMethod (EAddr (EVar "item")) "Decode" [(EVar "d"); (EVar "version")])]] (EBin Ne (EVar "err") ENil)
           [SReturn [(EVar "err")]]
           [];
          SAssign [(EIndex (EField (EVar "t") "Partitions") (EVar "i"))] [(EVar "item")]]]
       []];
   SReturn [(EVar "err")]].
(** message/messages.gen.go:295 *)
Definition go_PartitionProduceResponse0_Size : func := mkFunc [("t", GNamed "PartitionProduceResponse0"); ("version", GInt I16)] [GInt I32]
  [SVar "sz" (Some (GInt I32)) None;
   SOp (EVar "sz") Add (EGlobal "sizeof.Int32");
   SOp (EVar "sz") Add (EGlobal "sizeof.Int16");
   SOp (EVar "sz") Add (EGlobal "sizeof.Int64");
   SIf [] (EBin Ge (EVar "version") (EInt 2))
     [SOp (EVar "sz") Add (EGlobal "sizeof.Int64")]
     [];
   SIf [] (EBin Ge (EVar "version") (EInt 5))
     [SOp (EVar "sz") Add (EGlobal "sizeof.Int64")]
     [];
   SIf [] (EBin Ge (EVar "version") (EInt 8))
     [SOp (EVar "sz") Add (EGlobal "sizeof.ArrayLength");
      SFor [SDefine ["i"] [(EBin Sub (ELen (EField (EVar "t") "RecordErrors")) (EInt 1))]] (EBin Ge (EVar "i") (EInt 0)) [SOp (EVar "i") Sub (EInt 1)]
       [SOp (EVar "sz") Add (EMethod (EIndex (EField (EVar "t") "RecordErrors") (EVar "i")) "Size" [(EVar "version")])]]
     [];
   SIf [] (EBin Ge (EVar "version") (EInt 8))
     [SOp (EVar "sz") Add (ECall "sizeof.String" [(EField (EVar "t") "ErrorMessage")])]
     [];
   SReturn [(EVar "sz")]].
(** message/messages.gen.go:319 *)
Definition go_PartitionProduceResponse0_Encode : func := mkFunc [("t", GNamed "PartitionProduceResponse0"); ("e", GPtr (GNamed "Encoder")); ("version", GInt I16)] []
  [SExpr (EMethod (EVar "e") "PutInt32" [(EField (EVar "t") "PartitionIndex")]);
   SExpr (EMethod (EVar "e") "PutInt16" [(EField (EVar "t") "ErrorCode")]);
   SExpr (EMethod (EVar "e") "PutInt64" [(EField (EVar "t") "BaseOffset")]);
   SIf [] (EBin Ge (EVar "version") (EInt 2))
     [SExpr (EMethod (EVar "e") "PutInt64" [(EField (EVar "t") "LogAppendTimeMs")])]
     [];
   SIf [] (EBin Ge (EVar "version") (EInt 5))
     [SExpr (EMethod (EVar "e") "PutInt64" [(EField (EVar "t") "LogStartOffset")])]
     [];
   SIf [] (EBin Ge (EVar "version") (EInt 8))
     [SDefine ["len5"] [(ELen (EField (EVar "t") "RecordErrors"))];
      SExpr (EMethod (EVar "e") "PutArrayLength" [(EVar "len5")]);
      SFor [SDefine ["i"] [(EInt 0)]] (EBin Lt (EVar "i") (EVar "len5")) [SOp (EVar "i") Add (EInt 1)]
       [SExpr (EMethod (EIndex (EField (EVar "t") "RecordErrors") (EVar "i")) "Encode" [(EVar "e"); (EVar "version")])]]
     [];
   SIf [] (EBin Ge (EVar "version") (EInt 8))
     [SExpr (EMethod (EVar "e") "PutString" [(EField (EVar "t") "ErrorMessage")])]
     []].
(** message/messages.gen.go:343 *)
Definition go_PartitionProduceResponse0_Decode : func := mkFunc [("t", GPtr (GNamed "PartitionProduceResponse0")); ("d", GPtr (GNamed "Decoder")); ("version", GInt I16)] [GNamed "error"]
  [SVar "err" (Some (GNamed "error")) None;
   SAssign [(EField (EVar "t") "PartitionIndex"); (EVar "err")] [(EMethod (EVar "d") "Int32" [])];
   SIf [] (EBin Ne (EVar "err") ENil)
     [SReturn [(EVar "err")]]
     [];
   SAssign [(EField (EVar "t") "ErrorCode"); (EVar "err")] [(EMethod (EVar "d") "Int16" [])];
   SIf [] (EBin Ne (EVar "err") ENil)
     [SReturn [(EVar "err")]]
     [];
   SAssign [(EField (EVar "t") "BaseOffset"); (EVar "err")] [(EMethod (EVar "d") "Int64" [])];
   SIf [] (EBin Ne (EVar "err") ENil)
     [SReturn [(EVar "err")]]
     [];
   SIf [] (EBin Ge (EVar "version") (EInt 2))
     [SAssign [(EField (EVar "t") "LogAppendTimeMs"); (EVar "err")] [(EMethod (EVar "d") "Int64" [])];
      SIf [] (EBin Ne (EVar "err") ENil)
       [SReturn [(EVar "err")]]
       []]
     [];
   SIf [] (EBin Ge (EVar "version") (EInt 5))
     [SAssign [(EField (EVar "t") "LogStartOffset"); (EVar "err")] [(EMethod (EVar "d") "Int64" [])];
      SIf [] (EBin Ne (EVar "err") ENil)
       [SReturn [(EVar "err")]]
       []]
     [];
   SIf [] (EBin Ge (EVar "version") (EInt 8))
     [SIf [SDefine ["n"; "err"] [(EMethod (EVar "d") "ArrayLength" [])]] (EBin Ne (EVar "err") ENil)
       [SReturn [(EVar "err")]]
       [SIf [] (EBin Ge (EVar "n") (EInt 0))
         [SAssign [(EField (EVar "t") "RecordErrors")] [(EMake (GSlice (GNamed "BatchIndexAndErrorMessage0")) (EVar "n"))];
          SFor [SDefine ["i"] [(EInt 0)]] (EBin Lt (EVar "i") (EVar "n")) [SOp (EVar "i") Add (EInt 1)]
           [SVar "item" (Some (GNamed "BatchIndexAndErrorMessage0")) None;
            SIf [SDefine ["err"] [(EMethod (EAddr (EVar "item")) "Decode" [(EVar "d"); (EVar "version")])]] (EBin Ne (EVar "err") ENil)
             [SReturn [(EVar "err")]]
             [];
            SAssign [(EIndex (EField (EVar "t") "RecordErrors") (EVar "i"))] [(EVar "item")]]]
         []]]
     [];
   SIf [] (EBin Ge (EVar "version") (EInt 8))
     [SAssign [(EField (EVar "t") "ErrorMessage"); (EVar "err")] [(EMethod (EVar "d") "String" [])];
      SIf [] (EBin Ne (EVar "err") ENil)
       [SReturn [(EVar "err")]]
       []]
     [];
   SReturn [(EVar "err")]].
(** message/messages.gen.go:399 *)
Definition go_BatchIndexAndErrorMessage0_Size : func := mkFunc [("t", GNamed "BatchIndexAndErrorMessage0"); ("version", GInt I16)] [GInt I32]
  [SVar "sz" (Some (GInt I32)) None;
   SIf [] (EBin Ge (EVar "version") (EInt 8))
     [SOp (EVar "sz") Add (EGlobal "sizeof.Int32")]
     [];
   SIf [] (EBin Ge (EVar "version") (EInt 8))
     [SOp (EVar "sz") Add (ECall "sizeof.String" [(EField (EVar "t") "BatchIndexErrorMessage")])]
     [];
   SReturn [(EVar "sz")]].
(** message/messages.gen.go:411 *)
Definition go_BatchIndexAndErrorMessage0_Encode : func := mkFunc [("t", GNamed "BatchIndexAndErrorMessage0"); ("e", GPtr (GNamed "Encoder")); ("version", GInt I16)] []
  [SIf [] (EBin Ge (EVar "version") (EInt 8))
     [SExpr (EMethod (EVar "e") "PutInt32" [(EField (EVar "t") "BatchIndex")])]
     [];
   SIf [] (EBin Ge (EVar "version") (EInt 8))
     [SExpr (EMethod (EVar "e") "PutString" [(EField (EVar "t") "BatchIndexErrorMessage")])]
     []].
(** message/messages.gen.go:421 *)
Definition go_BatchIndexAndErrorMessage0_Decode : func := mkFunc [("t", GPtr (GNamed "BatchIndexAndErrorMessage0")); ("d", GPtr (GNamed "Decoder")); ("version", GInt I16)] [GNamed "error"]
  [SVar "err" (Some (GNamed "error")) None;
   SIf [] (EBin Ge (EVar "version") (EInt 8))
     [SAssign [(EField (EVar "t") "BatchIndex"); (EVar "err")] [(EMethod (EVar "d") "Int32" [])];
      SIf [] (EBin Ne (EVar "err") ENil)
       [SReturn [(EVar "err")]]
       []]
     [];
   SIf [] (EBin Ge (EVar "version") (EInt 8))
     [SAssign [(EField (EVar "t") "BatchIndexErrorMessage"); (EVar "err")] [(EMethod (EVar "d") "String" [])];
      SIf [] (EBin Ne (EVar "err") ENil)
       [SReturn [(EVar "err")]]
       []]
     [];
   SReturn [(EVar "err")]].
(** message/messages.gen.go:447 *)
Definition go_RequestHeader_Size : func := mkFunc [("t", GNamed "RequestHeader"); ("version", GInt I16)] [GInt I32]
  [SVar "sz" (Some (GInt I32)) None;
   SOp (EVar "sz") Add (EGlobal "sizeof.Int16");
   SOp (EVar "sz") Add (EGlobal "sizeof.Int16");
   SOp (EVar "sz") Add (EGlobal "sizeof.Int32");
   SIf [] (EBin Ge (EVar "version") (EInt 1))
     [SOp (EVar "sz") Add (ECall "sizeof.String" [(EField (EVar "t") "ClientId")])]
     [];
   SReturn [(EVar "sz")]].
(** message/messages.gen.go:459 *)
Definition go_RequestHeader_Encode : func := mkFunc [("t", GNamed "RequestHeader"); ("e", GPtr (GNamed "Encoder")); ("version", GInt I16)] []
  [SExpr (EMethod (EVar "e") "PutInt16" [(EField (EVar "t") "RequestApiKey")]);
   SExpr (EMethod (EVar "e") "PutInt16" [(EField (EVar "t") "RequestApiVersion")]);
   SExpr (EMethod (EVar "e") "PutInt32" [(EField (EVar "t") "CorrelationId")]);
   SIf [] (EBin Ge (EVar "version") (EInt 1))
     [SExpr (EMethod (EVar "e") "PutString" [(EField (EVar "t") "ClientId")])]
     []].
(** message/messages.gen.go:469 *)
Definition go_RequestHeader_Decode : func := mkFunc [("t", GPtr (GNamed "RequestHeader")); ("d", GPtr (GNamed "Decoder")); ("version", GInt I16)] [GNamed "error"]
  [SVar "err" (Some (GNamed "error")) None;
   SAssign [(EField (EVar "t") "RequestApiKey"); (EVar "err")] [(EMethod (EVar "d") "Int16" [])];
   SIf [] (EBin Ne (EVar "err") ENil)
     [SReturn [(EVar "err")]]
     [];
   SAssign [(EField (EVar "t") "RequestApiVersion"); (EVar "err")] [(EMethod (EVar "d") "Int16" [])];
   SIf [] (EBin Ne (EVar "err") ENil)
     [SReturn [(EVar "err")]]
     [];
   SAssign [(EField (EVar "t") "CorrelationId"); (EVar "err")] [(EMethod (EVar "d") "Int32" [])];
   SIf [] (EBin Ne (EVar "err") ENil)
     [SReturn [(EVar "err")]]
     [];
   SIf [] (EBin Ge (EVar "version") (EInt 1))
     [SAssign [(EField (EVar "t") "ClientId"); (EVar "err")] [(EMethod (EVar "d") "String" [])];
      SIf [] (EBin Ne (EVar "err") ENil)
       [SReturn [(EVar "err")]]
       []]
     [];
   SReturn [(EVar "err")]].
(** message/messages.gen.go:498 *)
Definition go_ResponseHeader_Size : func := mkFunc [("t", GNamed "ResponseHeader"); ("version", GInt I16)] [GInt I32]
  [SVar "sz" (Some (GInt I32)) None;
   SOp (EVar "sz") Add (EGlobal "sizeof.Int32");
   SReturn [(EVar "sz")]].
(** message/messages.gen.go:505 *)
Definition go_ResponseHeader_Encode : func := mkFunc [("t", GNamed "ResponseHeader"); ("e", GPtr (GNamed "Encoder")); ("version", GInt I16)] []
  [SExpr (EMethod (EVar "e") "PutInt32" [(EField (EVar "t") "CorrelationId")])].
(** message/messages.gen.go:510 *)
Definition go_ResponseHeader_Decode : func := mkFunc [("t", GPtr (GNamed "ResponseHeader")); ("d", GPtr (GNamed "Decoder")); ("version", GInt I16)] [GNamed "error"]
  [SVar "err" (Some (GNamed "error")) None;
   SAssign [(EField (EVar "t") "CorrelationId"); (EVar "err")] [(EMethod (EVar "d") "Int32" [])];
   SIf [] (EBin Ne (EVar "err") ENil)
     [SReturn [(EVar "err")]]
     [];
   SReturn [(EVar "err")]].
(** message/messages.gen.go:534 *)
Definition go_FetchRequest_Size : func := mkFunc [("t", GNamed "FetchRequest"); ("version", GInt I16)] [GInt I32]
  [SVar "sz" (Some (GInt I32)) None;
   SOp (EVar "sz") Add (EGlobal "sizeof.Int32");
   SOp (EVar "sz") Add (EGlobal "sizeof.Int32");
   SOp (EVar "sz") Add (EGlobal "sizeof.Int32");
   SIf [] (EBin Ge (EVar "version") (EInt 3))
     [SOp (EVar "sz") Add (EGlobal "sizeof.Int32")]
     [];
   SIf [] (EBin Ge (EVar "version") (EInt 4))
     [SOp (EVar "sz") Add (EGlobal "sizeof.Int8")]
     [];
   SIf [] (EBin Ge (EVar "version") (EInt 7))
     [SOp (EVar "sz") Add (EGlobal "sizeof.Int32")]
     [];
   SIf [] (EBin Ge (EVar "version") (EInt 7))
     [SOp (EVar "sz") Add (EGlobal "sizeof.Int32")]
     [];
   SOp (EVar "sz") Add (EGlobal "sizeof.ArrayLength");
   SFor [SDefine ["i"] [(EBin Sub (ELen (EField (EVar "t") "Topics")) (EInt 1))]] (EBin Ge (EVar "i") (EInt 0)) [SOp (EVar "i") Sub (EInt 1)]
     [SOp (EVar "sz") Add (EMethod (EIndex (EField (EVar "t") "Topics") (EVar "i")) "Size" [(EVar "version")])];
   SIf [] (EBin Ge (EVar "version") (EInt 7))
     [SOp (EVar "sz") Add (EGlobal "sizeof.ArrayLength");
      SFor [SDefine ["i"] [(EBin Sub (ELen (EField (EVar "t") "Forgotten")) (EInt 1))]] (EBin Ge (EVar "i") (EInt 0)) [SOp (EVar "i") Sub (EInt 1)]
       [SOp (EVar "sz") Add (EMethod (EIndex (EField (EVar "t") "Forgotten") (EVar "i")) "Size" [(EVar "version")])]]
     [];
   SIf [] (EBin Ge (EVar "version") (EInt 11))
     [SOp (EVar "sz") Add (ECall "sizeof.String" [(EField (EVar "t") "RackId")])]
     [];
   SReturn [(EVar "sz")]].
(** message/messages.gen.go:568 *)
Definition go_FetchRequest_Encode : func := mkFunc [("t", GNamed "FetchRequest"); ("e", GPtr (GNamed "Encoder")); ("version", GInt I16)] []
  [SExpr (EMethod (EVar "e") "PutInt32" [(EField (EVar "t") "ReplicaId")]);
   SExpr (EMethod (EVar "e") "PutInt32" [(EField (EVar "t") "MaxWait")]);
   SExpr (EMethod (EVar "e") "PutInt32" [(EField (EVar "t") "MinBytes")]);
   SIf [] (EBin Ge (EVar "version") (EInt 3))
     [SExpr (EMethod (EVar "e") "PutInt32" [(EField (EVar "t") "MaxBytes")])]
     [];
   SIf [] (EBin Ge (EVar "version") (EInt 4))
     [SExpr (EMethod (EVar "e") "PutInt8" [(EField (EVar "t") "IsolationLevel")])]
     [];
   SIf [] (EBin Ge (EVar "version") (EInt 7))
     [SExpr (EMethod (EVar "e") "PutInt32" [(EField (EVar "t") "SessionId")])]
     [];
   SIf [] (EBin Ge (EVar "version") (EInt 7))
     [SExpr (EMethod (EVar "e") "PutInt32" [(EField (EVar "t") "Epoch")])]
     [];
   SDefine ["len7"] [(ELen (EField (EVar "t") "Topics"))];
   SExpr (EMethod (EVar "e") "PutArrayLength" [(EVar "len7")]);
   SFor [SDefine ["i"] [(EInt 0)]] (EBin Lt (EVar "i") (EVar "len7")) [SOp (EVar "i") Add (EInt 1)]
     [SExpr (EMethod (EIndex (EField (EVar "t") "Topics") (EVar "i")) "Encode" [(EVar "e"); (EVar "version")])];
   SIf [] (EBin Ge (EVar "version") (EInt 7))
     [SDefine ["len8"] [(ELen (EField (EVar "t") "Forgotten"))];
      SExpr (EMethod (EVar "e") "PutArrayLength" [(EVar "len8")]);
      SFor [SDefine ["i"] [(EInt 0)]] (EBin Lt (EVar "i") (EVar "len8")) [SOp (EVar "i") Add (EInt 1)]
       [SExpr (EMethod (EIndex (EField (EVar "t") "Forgotten") (EVar "i")) "Encode" [(EVar "e"); (EVar "version")])]]
     [];
   SIf [] (EBin Ge (EVar "version") (EInt 11))
     [SExpr (EMethod (EVar "e") "PutString" [(EField (EVar "t") "RackId")])]
     []].
(** message/messages.gen.go:604 *)
Definition go_FetchRequest_Decode : func := mkFunc [("t", GPtr (GNamed "FetchRequest")); ("d", GPtr (GNamed "Decoder")); ("version", GInt I16)] [GNamed "error"]
  [SVar "err" (Some (GNamed "error")) None;
   SAssign [(EField (EVar "t") "ReplicaId"); (EVar "err")] [(EMethod (EVar "d") "Int32" [])];
   SIf [] (EBin Ne (EVar "err") ENil)
     [SReturn [(EVar "err")]]
     [];
   SAssign [(EField (EVar "t") "MaxWait"); (EVar "err")] [(EMethod (EVar "d") "Int32" [])];
   SIf [] (EBin Ne (EVar "err") ENil)
     [SReturn [(EVar "err")]]
     [];
   SAssign [(EField (EVar "t") "MinBytes"); (EVar "err")] [(EMethod (EVar "d") "Int32" [])];
   SIf [] (EBin Ne (EVar "err") ENil)
     [SReturn [(EVar "err")]]
     [];
   SIf [] (EBin Ge (EVar "version") (EInt 3))
     [SAssign [(EField (EVar "t") "MaxBytes"); (EVar "err")] [(EMethod (EVar "d") "Int32" [])];
      SIf [] (EBin Ne (EVar "err") ENil)
       [SReturn [(EVar "err")]]
       []]
     [];
   SIf [] (EBin Ge (EVar "version") (EInt 4))
     [SAssign [(EField (EVar "t") "IsolationLevel"); (EVar "err")] [(EMethod (EVar "d") "Int8" [])];
      SIf [] (EBin Ne (EVar "err") ENil)
       [SReturn [(EVar "err")]]
       []]
     [];
   SIf [] (EBin Ge (EVar "version") (EInt 7))
     [SAssign [(EField (EVar "t") "SessionId"); (EVar "err")] [(EMethod (EVar "d") "Int32" [])];
      SIf [] (EBin Ne (EVar "err") ENil)
       [SReturn [(EVar "err")]]
       []]
     [];
   SIf [] (EBin Ge (EVar "version") (EInt 7))
     [SAssign [(EField (EVar "t") "Epoch"); (EVar "err")] [(EMethod (EVar "d") "Int32" [])];
      SIf [] (EBin Ne (EVar "err") ENil)
       [SReturn [(EVar "err")]]
       []]
     [];
   SIf [SDefine ["n"; "err"] [(EMethod (EVar "d") "ArrayLength" [])]] (EBin Ne (EVar "err") ENil)
     [SReturn [(EVar "err")]]
     [SIf [] (EBin Ge (EVar "n") (EInt 0))
       [SAssign [(EField (EVar "t") "Topics")] [(EMake (GSlice (GNamed "FetchableTopic1")) (EVar "n"))];
        SFor [SDefine ["i"] [(EInt 0)]] (EBin Lt (EVar "i") (EVar "n")) [SOp (EVar "i") Add (EInt 1)]
         [SVar "item" (Some (GNamed "FetchableTopic1")) None;
          SIf [SDefine ["err"] [(EMethod (EAddr (EVar "item")) "Decode" [(EVar "d"); (EVar "version")])]] (EBin Ne (EVar "err") ENil)
           [SReturn [(EVar "err")]]
           [];
          SAssign [(EIndex (EField (EVar "t") "Topics") (EVar "i"))] [(EVar "item")]]]
       []];
   SIf [] (EBin Ge (EVar "version") (EInt 7))
     [SIf [SDefine ["n"; "err"] [(EMethod (EVar "d") "ArrayLength" [])]] (EBin Ne (EVar "err") ENil)
       [SReturn [(EVar "err")]]
       [SIf [] (EBin Ge (EVar "n") (EInt 0))
         [SAssign [(EField (EVar "t") "Forgotten")] [(EMake (GSlice (GNamed "ForgottenTopic1")) (EVar "n"))];
          SFor [SDefine ["i"] [(EInt 0)]] (EBin Lt (EVar "i") (EVar "n")) [SOp (EVar "i") Add (EInt 1)]
           [SVar "item" (Some (GNamed "ForgottenTopic1")) None;
            SIf [SDefine ["err"] [(EMethod (EAddr (EVar "item")) "Decode" [(EVar "d"); (EVar "version")])]] (EBin Ne (EVar "err") ENil)
             [SReturn [(EVar "err")]]
             [];
            SAssign [(EIndex (EField (EVar "t") "Forgotten") (EVar "i"))] [(EVar "item")]]]
         []]]
     [];
   SIf [] (EBin Ge (EVar "version") (EInt 11))
     [SAssign [(EField (EVar "t") "RackId"); (EVar "err")] [(EMethod (EVar "d") "String" [])];
      SIf [] (EBin Ne (EVar "err") ENil)
       [SReturn [(EVar "err")]]
       []]
     [];
   SReturn [(EVar "err")]].
(** message/messages.gen.go:685 *)
Definition go_FetchableTopic1_Size : func := mkFunc [("t", GNamed "FetchableTopic1"); ("version", GInt I16)] [GInt I32]
  [SVar "sz" (Some (GInt I32)) None;
   SOp (EVar "sz") Add (ECall "sizeof.String" [(EField (EVar "t") "Name")]);
   SOp (EVar "sz") Add (EGlobal "sizeof.ArrayLength");
   SFor [SDefine ["i"] [(EBin Sub (ELen (EField (EVar "t") "FetchPartitions")) (EInt 1))]] (EBin Ge (EVar "i") (EInt 0)) [SOp (EVar "i") Sub (EInt 1)]
     [SOp (EVar "sz") Add (EMethod (EIndex (EField (EVar "t") "FetchPartitions") (EVar "i")) "Size" [(EVar "version")])];
   SReturn [(EVar "sz")]].
(** message/messages.gen.go:696 *)
Definition go_FetchableTopic1_Encode : func := mkFunc [("t", GNamed "FetchableTopic1"); ("e", GPtr (GNamed "Encoder")); ("version", GInt I16)] []
  [SExpr (EMethod (EVar "e") "PutString" [(EField (EVar "t") "Name")]);
   SDefine ["len1"] [(ELen (EField (EVar "t") "FetchPartitions"))];
   SExpr (EMethod (EVar "e") "PutArrayLength" [(EVar "len1")]);
   SFor [SDefine ["i"] [(EInt 0)]] (EBin Lt (EVar "i") (EVar "len1")) [SOp (EVar "i") Add (EInt 1)]
     [SExpr (EMethod (EIndex (EField (EVar "t") "FetchPartitions") (EVar "i")) "Encode" [(EVar "e"); (EVar "version")])]].
(** message/messages.gen.go:707 *)
Definition go_FetchableTopic1_Decode : func := mkFunc [("t", GPtr (GNamed "FetchableTopic1")); ("d", GPtr (GNamed "Decoder")); ("version", GInt I16)] [GNamed "error"]
  [SVar "err" (Some (GNamed "error")) None;
   SAssign [(EField (EVar "t") "Name"); (EVar "err")] [(EMethod (EVar "d") "String" [])];
   SIf [] (EBin Ne (EVar "err") ENil)
     [SReturn [(EVar "err")]]
     [];
   SIf [SDefine ["n"; "err"] [(EMethod (EVar "d") "ArrayLength" [])]] (EBin Ne (EVar "err") ENil)
     [SReturn [(EVar "err")]]
     [SIf [] (EBin Ge (EVar "n") (EInt 0))
       [SAssign [(EField (EVar "t") "FetchPartitions")] [(EMake (GSlice (GNamed "FetchPartition1")) (EVar "n"))];
        SFor [SDefine ["i"] [(EInt 0)]] (EBin Lt (EVar "i") (EVar "n")) [SOp (EVar "i") Add (EInt 1)]
         [SVar "item" (Some (GNamed "FetchPartition1")) None;
          SIf [SDefine ["err"] [(EMethod (EAddr (EVar "item")) "Decode" [(EVar "d"); (EVar "version")])]] (EBin Ne (EVar "err") ENil)
           [SReturn [(EVar "err")]]
           [];
          SAssign [(EIndex (EField (EVar "t") "FetchPartitions") (EVar "i"))] [(EVar "item")]]]
       []];
   SReturn [(EVar "err")]].
(** message/messages.gen.go:738 *)
Definition go_FetchPartition1_Size : func := mkFunc [("t", GNamed "FetchPartition1"); ("version", GInt I16)] [GInt I32]
  [SVar "sz" (Some (GInt I32)) None;
   SOp (EVar "sz") Add (EGlobal "sizeof.Int32");
   SIf [] (EBin Ge (EVar "version") (EInt 9))
     [SOp (EVar "sz") Add (EGlobal "sizeof.Int32")]
     [];
   SOp (EVar "sz") Add (EGlobal "sizeof.Int64");
   SIf [] (EBin Ge (EVar "version") (EInt 5))
     [SOp (EVar "sz") Add (EGlobal "sizeof.Int64")]
     [];
   SOp (EVar "sz") Add (EGlobal "sizeof.Int32");
   SReturn [(EVar "sz")]].
(** message/messages.gen.go:753 *)
Definition go_FetchPartition1_Encode : func := mkFunc [("t", GNamed "FetchPartition1"); ("e", GPtr (GNamed "Encoder")); ("version", GInt I16)] []
  [SExpr (EMethod (EVar "e") "PutInt32" [(EField (EVar "t") "PartitionIndex")]);
   SIf [] (EBin Ge (EVar "version") (EInt 9))
     [SExpr (EMethod (EVar "e") "PutInt32" [(EField (EVar "t") "CurrentLeaderEpoch")])]
     [];
   SExpr (EMethod (EVar "e") "PutInt64" [(EField (EVar "t") "FetchOffset")]);
   SIf [] (EBin Ge (EVar "version") (EInt 5))
     [SExpr (EMethod (EVar "e") "PutInt64" [(EField (EVar "t") "LogStartOffset")])]
     [];
   SExpr (EMethod (EVar "e") "PutInt32" [(EField (EVar "t") "MaxBytes")])].
(** message/messages.gen.go:766 *)
Definition go_FetchPartition1_Decode : func := mkFunc [("t", GPtr (GNamed "FetchPartition1")); ("d", GPtr (GNamed "Decoder")); ("version", GInt I16)] [GNamed "error"]
  [SVar "err" (Some (GNamed "error")) None;
   SAssign [(EField (EVar "t") "PartitionIndex"); (EVar "err")] [(EMethod (EVar "d") "Int32" [])];
   SIf [] (EBin Ne (EVar "err") ENil)
     [SReturn [(EVar "err")]]
     [];
   SIf [] (EBin Ge (EVar "version") (EInt 9))
     [SAssign [(EField (EVar "t") "CurrentLeaderEpoch"); (EVar "err")] [(EMethod (EVar "d") "Int32" [])];
      SIf [] (EBin Ne (EVar "err") ENil)
       [SReturn [(EVar "err")]]
       []]
     [];
   SAssign [(EField (EVar "t") "FetchOffset"); (EVar "err")] [(EMethod (EVar "d") "Int64" [])];
   SIf [] (EBin Ne (EVar "err") ENil)
     [SReturn [(EVar "err")]]
     [];
   SIf [] (EBin Ge (EVar "version") (EInt 5))
     [SAssign [(EField (EVar "t") "LogStartOffset"); (EVar "err")] [(EMethod (EVar "d") "Int64" [])];
      SIf [] (EBin Ne (EVar "err") ENil)
       [SReturn [(EVar "err")]]
       []]
     [];
   SAssign [(EField (EVar "t") "MaxBytes"); (EVar "err")] [(EMethod (EVar "d") "Int32" [])];
   SIf [] (EBin Ne (EVar "err") ENil)
     [SReturn [(EVar "err")]]
     [];
   SReturn [(EVar "err")]].
(** message/messages.gen.go:801 *)
Definition go_ForgottenTopic1_Size : func := mkFunc [("t", GNamed "ForgottenTopic1"); ("version", GInt I16)] [GInt I32]
  [SVar "sz" (Some (GInt I32)) None;
   SIf [] (EBin Ge (EVar "version") (EInt 7))
     [SOp (EVar "sz") Add (ECall "sizeof.String" [(EField (EVar "t") "Name")])]
     [];
   SIf [] (EBin Ge (EVar "version") (EInt 7))
     [SOp (EVar "sz") Add (ECall "sizeof.Int32Array" [(EField (EVar "t") "ForgottenPartitionIndexes")])]
     [];
   SReturn [(EVar "sz")]].
(** message/messages.gen.go:813 *)
Definition go_ForgottenTopic1_Encode : func := mkFunc [("t", GNamed "ForgottenTopic1"); ("e", GPtr (GNamed "Encoder")); ("version", GInt I16)] []
  [SIf [] (EBin Ge (EVar "version") (EInt 7))
     [SExpr (EMethod (EVar "e") "PutString" [(EField (EVar "t") "Name")])]
     [];
   SIf [] (EBin Ge (EVar "version") (EInt 7))
     [SExpr (EMethod (EVar "e") "PutInt32Array" [(EField (EVar "t") "ForgottenPartitionIndexes")])]
     []].
(** message/messages.gen.go:823 *)
Definition go_ForgottenTopic1_Decode : func := mkFunc [("t", GPtr (GNamed "ForgottenTopic1")); ("d", GPtr (GNamed "Decoder")); ("version", GInt I16)] [GNamed "error"]
  [SVar "err" (Some (GNamed "error")) None;
   SIf [] (EBin Ge (EVar "version") (EInt 7))
     [SAssign [(EField (EVar "t") "Name"); (EVar "err")] [(EMethod (EVar "d") "String" [])];
      SIf [] (EBin Ne (EVar "err") ENil)
       [SReturn [(EVar "err")]]
       []]
     [];
   SIf [] (EBin Ge (EVar "version") (EInt 7))
     [SAssign [(EField (EVar "t") "ForgottenPartitionIndexes"); (EVar "err")] [(EMethod (EVar "d") "Int32Array" [])];
      SIf [] (EBin Ne (EVar "err") ENil)
       [SReturn [(EVar "err")]]
       []]
     [];
   SReturn [(EVar "err")]].
(** message/messages.gen.go:849 *)
Definition go_FetchResponse_Size : func := mkFunc [("t", GNamed "FetchResponse"); ("version", GInt I16)] [GInt I32]
  [SVar "sz" (Some (GInt I32)) None;
   SIf [] (EBin Ge (EVar "version") (EInt 1))
     [SOp (EVar "sz") Add (EGlobal "sizeof.Int32")]
     [];
   SIf [] (EBin Ge (EVar "version") (EInt 7))
     [SOp (EVar "sz") Add (EGlobal "sizeof.Int16")]
     [];
   SIf [] (EBin Ge (EVar "version") (EInt 7))
     [SOp (EVar "sz") Add (EGlobal "sizeof.Int32")]
     [];
   SOp (EVar "sz") Add (EGlobal "sizeof.ArrayLength");
   SFor [SDefine ["i"] [(EBin Sub (ELen (EField (EVar "t") "Topics")) (EInt 1))]] (EBin Ge (EVar "i") (EInt 0)) [SOp (EVar "i") Sub (EInt 1)]
     [SOp (EVar "sz") Add (EMethod (EIndex (EField (EVar "t") "Topics") (EVar "i")) "Size" [(EVar "version")])];
   SReturn [(EVar "sz")]].
(** message/messages.gen.go:868 *)
Definition go_FetchResponse_Encode : func := mkFunc [("t", GNamed "FetchResponse"); ("e", GPtr (GNamed "Encoder")); ("version", GInt I16)] []
  [SIf [] (EBin Ge (EVar "version") (EInt 1))
     [SExpr (EMethod (EVar "e") "PutInt32" [(EField (EVar "t") "ThrottleTimeMs")])]
     [];
   SIf [] (EBin Ge (EVar "version") (EInt 7))
     [SExpr (EMethod (EVar "e") "PutInt16" [(EField (EVar "t") "ErrorCode")])]
     [];
   SIf [] (EBin Ge (EVar "version") (EInt 7))
     [SExpr (EMethod (EVar "e") "PutInt32" [(EField (EVar "t") "SessionId")])]
     [];
   SDefine ["len3"] [(ELen (EField (EVar "t") "Topics"))];
   SExpr (EMethod (EVar "e") "PutArrayLength" [(EVar "len3")]);
   SFor [SDefine ["i"] [(EInt 0)]] (EBin Lt (EVar "i") (EVar "len3")) [SOp (EVar "i") Add (EInt 1)]
     [SExpr (EMethod (EIndex (EField (EVar "t") "Topics") (EVar "i")) "Encode" [(EVar "e"); (EVar "version")])]].
(** message/messages.gen.go:887 *)
Definition go_FetchResponse_Decode : func := mkFunc [("t", GPtr (GNamed "FetchResponse")); ("d", GPtr (GNamed "Decoder")); ("version", GInt I16)] [GNamed "error"]
  [SVar "err" (Some (GNamed "error")) None;
   SIf [] (EBin Ge (EVar "version") (EInt 1))
     [SAssign [(EField (EVar "t") "ThrottleTimeMs"); (EVar "err")] [(EMethod (EVar "d") "Int32" [])];
      SIf [] (EBin Ne (EVar "err") ENil)
       [SReturn [(EVar "err")]]
       []]
     [];
   SIf [] (EBin Ge (EVar "version") (EInt 7))
     [SAssign [(EField (EVar "t") "ErrorCode"); (EVar "err")] [(EMethod (EVar "d") "Int16" [])];
      SIf [] (EBin Ne (EVar "err") ENil)
       [SReturn [(EVar "err")]]
       []]
     [];
   SIf [] (EBin Ge (EVar "version") (EInt 7))
     [SAssign [(EField (EVar "t") "SessionId"); (EVar "err")] [(EMethod (EVar "d") "Int32" [])];
      SIf [] (EBin Ne (EVar "err") ENil)
       [SReturn [(EVar "err")]]
       []]
     [];
   SIf [SDefine ["n"; "err"] [(EMethod (EVar "d") "ArrayLength" [])]] (EBin Ne (EVar "err") ENil)
     [SReturn [(EVar "err")]]
     [SIf [] (EBin Ge (EVar "n") (EInt 0))
       [SAssign [(EField (EVar "t") "Topics")] [(EMake (GSlice (GNamed "FetchableTopicResponse1")) (EVar "n"))];
        SFor [SDefine ["i"] [(EInt 0)]] (EBin Lt (EVar "i") (EVar "n")) [SOp (EVar "i") Add (EInt 1)]
         [SVar "item" (Some (GNamed "FetchableTopicResponse1")) None;
          SIf [SDefine ["err"] [(EMethod (EAddr (EVar "item")) "Decode" [(EVar "d"); (EVar "version")])]] (EBin Ne (EVar "err") ENil)
           [SReturn [(EVar "err")]]
           [];
          SAssign [(EIndex (EField (EVar "t") "Topics") (EVar "i"))] [(EVar "item")]]]
       []];
   SReturn [(EVar "err")]].
(** message/messages.gen.go:929 *)
Definition go_FetchableTopicResponse1_Size : func := mkFunc [("t", GNamed "FetchableTopicResponse1"); ("version", GInt I16)] [GInt I32]
  [SVar "sz" (Some (GInt I32)) None;
   SOp (EVar "sz") Add (ECall "sizeof.String" [(EField (EVar "t") "Name")]);
   SOp (EVar "sz") Add (EGlobal "sizeof.ArrayLength");
   SFor [SDefine ["i"] [(EBin Sub (ELen (EField (EVar "t") "Partitions")) (EInt 1))]] (EBin Ge (EVar "i") (EInt 0)) [SOp (EVar "i") Sub (EInt 1)]
     [SOp (EVar "sz") Add (EMethod (EIndex (EField (EVar "t") "Partitions") (EVar "i")) "Size" [(EVar "version")])];
   SReturn [(EVar "sz")]].
(** message/messages.gen.go:940 *)
Definition go_FetchableTopicResponse1_Encode : func := mkFunc [("t", GNamed "FetchableTopicResponse1"); ("e", GPtr (GNamed "Encoder")); ("version", GInt I16)] []
  [SExpr (EMethod (EVar "e") "PutString" [(EField (EVar "t") "Name")]);
   SDefine ["len1"] [(ELen (EField (EVar "t") "Partitions"))];
   SExpr (EMethod (EVar "e") "PutArrayLength" [(EVar "len1")]);
   SFor [SDefine ["i"] [(EInt 0)]] (EBin Lt (EVar "i") (EVar "len1")) [SOp (EVar "i") Add (EInt 1)]
     [SExpr (EMethod (EIndex (EField (EVar "t") "Partitions") (EVar "i")) "Encode" [(EVar "e"); (EVar "version")])]].
(** message/messages.gen.go:951 *)
Definition go_FetchableTopicResponse1_Decode : func := mkFunc [("t", GPtr (GNamed "FetchableTopicResponse1")); ("d", GPtr (GNamed "Decoder")); ("version", GInt I16)] [GNamed "error"]
  [SVar "err" (Some (GNamed "error")) None;
   SAssign [(EField (EVar "t") "Name"); (EVar "err")] [(EMethod (EVar "d") "String" [])];
   SIf [] (EBin Ne (EVar "err") ENil)
     [SReturn [(EVar "err")]]
     [];
   SIf [SDefine ["n"; "err"] [(EMethod (EVar "d") "ArrayLength" [])]] (EBin Ne (EVar "err") ENil)
     [SReturn [(EVar "err")]]
     [SIf [] (EBin Ge (EVar "n") (EInt 0))
       [SAssign [(EField (EVar "t") "Partitions")] [(EMake (GSlice (GNamed "FetchablePartitionResponse1")) (EVar "n"))];
        SFor [SDefine ["i"] [(EInt 0)]] (EBin Lt (EVar "i") (EVar "n")) [SOp (EVar "i") Add (EInt 1)]
         [SVar "item" (Some (GNamed "FetchablePartitionResponse1")) None;
          SIf [SDefine ["err"] [(EMethod (EAddr (EVar "item")) "Decode" [(EVar "d"); (EVar "version")])]] (EBin Ne (EVar "err") ENil)
           [SReturn [(EVar "err")]]
           [];
          SAssign [(EIndex (EField (EVar "t") "Partitions") (EVar "i"))] [(EVar "item")]]]
       []];
   SReturn [(EVar "err")]].
(** message/messages.gen.go:985 *)
Definition go_FetchablePartitionResponse1_Size : func := mkFunc [("t", GNamed "FetchablePartitionResponse1"); ("version", GInt I16)] [GInt I32]
  [SVar "sz" (Some (GInt I32)) None;
   SOp (EVar "sz") Add (EGlobal "sizeof.Int32");
   SOp (EVar "sz") Add (EGlobal "sizeof.Int16");
   SOp (EVar "sz") Add (EGlobal "sizeof.Int64");
   SIf [] (EBin Ge (EVar "version") (EInt 4))
     [SOp (EVar "sz") Add (EGlobal "sizeof.Int64")]
     [];
   SIf [] (EBin Ge (EVar "version") (EInt 5))
     [SOp (EVar "sz") Add (EGlobal "sizeof.Int64")]
     [];
   SIf [] (EBin Ge (EVar "version") (EInt 4))
     [SOp (EVar "sz") Add (EGlobal "sizeof.ArrayLength");
      SFor [SDefine ["i"] [(EBin Sub (ELen (EField (EVar "t") "Aborted")) (EInt 1))]] (EBin Ge (EVar "i") (EInt 0)) [SOp (EVar "i") Sub (EInt 1)]
       [SOp (EVar "sz") Add (EMethod (EIndex (EField (EVar "t") "Aborted") (EVar "i")) "Size" [(EVar "version")])]]
     [];
   SIf [] (EBin Ge (EVar "version") (EInt 11))
     [SOp (EVar "sz") Add (EGlobal "sizeof.Int32")]
     [];
   SOp (EVar "sz") Add (ECall "sizeof.Bytes" [(EField (EVar "t") "Records")]);
   SReturn [(EVar "sz")]].
(** message/messages.gen.go:1010 *)
Definition go_FetchablePartitionResponse1_Encode : func := mkFunc [("t", GNamed "FetchablePartitionResponse1"); ("e", GPtr (GNamed "Encoder")); ("version", GInt I16)] []
  [SExpr (EMethod (EVar "e") "PutInt32" [(EField (EVar "t") "PartitionIndex")]);
   SExpr (EMethod (EVar "e") "PutInt16" [(EField (EVar "t") "ErrorCode")]);
   SExpr (EMethod (EVar "e") "PutInt64" [(EField (EVar "t") "HighWatermark")]);
   SIf [] (EBin Ge (EVar "version") (EInt 4))
     [SExpr (EMethod (EVar "e") "PutInt64" [(EField (EVar "t") "LastStableOffset")])]
     [];
   SIf [] (EBin Ge (EVar "version") (EInt 5))
     [SExpr (EMethod (EVar "e") "PutInt64" [(EField (EVar "t") "LogStartOffset")])]
     [];
   SIf [] (EBin Ge (EVar "version") (EInt 4))
     [SDefine ["len5"] [(ELen (EField (EVar "t") "Aborted"))];
      SExpr (EMethod (EVar "e") "PutArrayLength" [(EVar "len5")]);
      SFor [SDefine ["i"] [(EInt 0)]] (EBin Lt (EVar "i") (EVar "len5")) [SOp (EVar "i") Add (EInt 1)]
       [SExpr (EMethod (EIndex (EField (EVar "t") "Aborted") (EVar "i")) "Encode" [(EVar "e"); (EVar "version")])]]
     [];
   SIf [] (EBin Ge (EVar "version") (EInt 11))
     [SExpr (EMethod (EVar "e") "PutInt32" [(EField (EVar "t") "PreferredReadReplica")])]
     [];
   SExpr (EMethod (EVar "e") "PutBytes" [(EField (EVar "t") "Records")])].
(** message/messages.gen.go:1035 *)
Definition go_FetchablePartitionResponse1_Decode : func := mkFunc [("t", GPtr (GNamed "FetchablePartitionResponse1")); ("d", GPtr (GNamed "Decoder")); ("version", GInt I16)] [GNamed "error"]
  [SVar "err" (Some (GNamed "error")) None;
   SAssign [(EField (EVar "t") "PartitionIndex"); (EVar "err")] [(EMethod (EVar "d") "Int32" [])];
   SIf [] (EBin Ne (EVar "err") ENil)
     [SReturn [(EVar "err")]]
     [];
   SAssign [(EField (EVar "t") "ErrorCode"); (EVar "err")] [(EMethod (EVar "d") "Int16" [])];
   SIf [] (EBin Ne (EVar "err") ENil)
     [SReturn [(EVar "err")]]
     [];
   SAssign [(EField (EVar "t") "HighWatermark"); (EVar "err")] [(EMethod (EVar "d") "Int64" [])];
   SIf [] (EBin Ne (EVar "err") ENil)
     [SReturn [(EVar "err")]]
     [];
   SIf [] (EBin Ge (EVar "version") (EInt 4))
     [SAssign [(EField (EVar "t") "LastStableOffset"); (EVar "err")] [(EMethod (EVar "d") "Int64" [])];
      SIf [] (EBin Ne (EVar "err") ENil)
       [SReturn [(EVar "err")]]
       []]
     [];
   SIf [] (EBin Ge (EVar "version") (EInt 5))
     [SAssign [(EField (EVar "t") "LogStartOffset"); (EVar "err")] [(EMethod (EVar "d") "Int64" [])];
      SIf [] (EBin Ne (EVar "err") ENil)
       [SReturn [(EVar "err")]]
       []]
     [];
   SIf [] (EBin Ge (EVar "version") (EInt 4))
     [SIf [SDefine ["n"; "err"] [(EMethod (EVar "d") "ArrayLength" [])]] (EBin Ne (EVar "err") ENil)
       [SReturn [(EVar "err")]]
       [SIf [] (EBin Ge (EVar "n") (EInt 0))
         [SAssign [(EField (EVar "t") "Aborted")] [(EMake (GSlice (GNamed "AbortedTransaction1")) (EVar "n"))];
          SFor [SDefine ["i"] [(EInt 0)]] (EBin Lt (EVar "i") (EVar "n")) [SOp (EVar "i") Add (EInt 1)]
           [SVar "item" (Some (GNamed "AbortedTransaction1")) None;
            SIf [SDefine ["err"] [(EMethod (EAddr (EVar "item")) "Decode" [(EVar "d"); (EVar "version")])]] (EBin Ne (EVar "err") ENil)
             [SReturn [(EVar "err")]]
             [];
            SAssign [(EIndex (EField (EVar "t") "Aborted") (EVar "i"))] [(EVar "item")]]]
         []]]
     [];
   SIf [] (EBin Ge (EVar "version") (EInt 11))
     [SAssign [(EField (EVar "t") "PreferredReadReplica"); (EVar "err")] [(EMethod (EVar "d") "Int32" [])];
      SIf [] (EBin Ne (EVar "err") ENil)
       [SReturn [(EVar "err")]]
       []]
     [];
   SAssign [(EField (EVar "t") "Records"); (EVar "err")] [(EMethod (EVar "d") "Bytes" [])];
   SIf [] (EBin Ne (EVar "err") ENil)
     [SReturn [(EVar "err")]]
     [];
   SReturn [(EVar "err")]].
(** message/messages.gen.go:1095 *)
Definition go_AbortedTransaction1_Size : func := mkFunc [("t", GNamed "AbortedTransaction1"); ("version", GInt I16)] [GInt I32]
  [SVar "sz" (Some (GInt I32)) None;
   SIf [] (EBin Ge (EVar "version") (EInt 4))
     [SOp (EVar "sz") Add (EGlobal "sizeof.Int64")]
     [];
   SIf [] (EBin Ge (EVar "version") (EInt 4))
     [SOp (EVar "sz") Add (EGlobal "sizeof.Int64")]
     [];
   SReturn [(EVar "sz")]].
(** message/messages.gen.go:1107 *)
Definition go_AbortedTransaction1_Encode : func := mkFunc [("t", GNamed "AbortedTransaction1"); ("e", GPtr (GNamed "Encoder")); ("version", GInt I16)] []
  [SIf [] (EBin Ge (EVar "version") (EInt 4))
     [SExpr (EMethod (EVar "e") "PutInt64" [(EField (EVar "t") "ProducerId")])]
     [];
   SIf [] (EBin Ge (EVar "version") (EInt 4))
     [SExpr (EMethod (EVar "e") "PutInt64" [(EField (EVar "t") "FirstOffset")])]
     []].
(** message/messages.gen.go:1117 *)
Definition go_AbortedTransaction1_Decode : func := mkFunc [("t", GPtr (GNamed "AbortedTransaction1")); ("d", GPtr (GNamed "Decoder")); ("version", GInt I16)] [GNamed "error"]
  [SVar "err" (Some (GNamed "error")) None;
   SIf [] (EBin Ge (EVar "version") (EInt 4))
     [SAssign [(EField (EVar "t") "ProducerId"); (EVar "err")] [(EMethod (EVar "d") "Int64" [])];
      SIf [] (EBin Ne (EVar "err") ENil)
       [SReturn [(EVar "err")]]
       []]
     [];
   SIf [] (EBin Ge (EVar "version") (EInt 4))
     [SAssign [(EField (EVar "t") "FirstOffset"); (EVar "err")] [(EMethod (EVar "d") "Int64" [])];
      SIf [] (EBin Ne (EVar "err") ENil)
       [SReturn [(EVar "err")]]
       []]
     [];
   SReturn [(EVar "err")]].
(** message/messages.gen.go:1142 *)
Definition go_ListOffsetRequest_Size : func := mkFunc [("t", GNamed "ListOffsetRequest"); ("version", GInt I16)] [GInt I32]
  [SVar "sz" (Some (GInt I32)) None;
   SOp (EVar "sz") Add (EGlobal "sizeof.Int32");
   SIf [] (EBin Ge (EVar "version") (EInt 2))
     [SOp (EVar "sz") Add (EGlobal "sizeof.Int8")]
     [];
   SOp (EVar "sz") Add (EGlobal "sizeof.ArrayLength");
   SFor [SDefine ["i"] [(EBin Sub (ELen (EField (EVar "t") "Topics")) (EInt 1))]] (EBin Ge (EVar "i") (EInt 0)) [SOp (EVar "i") Sub (EInt 1)]
     [SOp (EVar "sz") Add (EMethod (EIndex (EField (EVar "t") "Topics") (EVar "i")) "Size" [(EVar "version")])];
   SReturn [(EVar "sz")]].
(** message/messages.gen.go:1156 *)
Definition go_ListOffsetRequest_Encode : func := mkFunc [("t", GNamed "ListOffsetRequest"); ("e", GPtr (GNamed "Encoder")); ("version", GInt I16)] []
  [SExpr (EMethod (EVar "e") "PutInt32" [(EField (EVar "t") "ReplicaId")]);
   SIf [] (EBin Ge (EVar "version") (EInt 2))
     [SExpr (EMethod (EVar "e") "PutInt8" [(EField (EVar "t") "IsolationLevel")])]
     [];
   SDefine ["len2"] [(ELen (EField (EVar "t") "Topics"))];
   SExpr (EMethod (EVar "e") "PutArrayLength" [(EVar "len2")]);
   SFor [SDefine ["i"] [(EInt 0)]] (EBin Lt (EVar "i") (EVar "len2")) [SOp (EVar "i") Add (EInt 1)]
     [SExpr (EMethod (EIndex (EField (EVar "t") "Topics") (EVar "i")) "Encode" [(EVar "e"); (EVar "version")])]].
(** message/messages.gen.go:1170 *)
Definition go_ListOffsetRequest_Decode : func := mkFunc [("t", GPtr (GNamed "ListOffsetRequest")); ("d", GPtr (GNamed "Decoder")); ("version", GInt I16)] [GNamed "error"]
  [SVar "err" (Some (GNamed "error")) None;
   SAssign [(EField (EVar "t") "ReplicaId"); (EVar "err")] [(EMethod (EVar "d") "Int32" [])];
   SIf [] (EBin Ne (EVar "err") ENil)
     [SReturn [(EVar "err")]]
     [];
   SIf [] (EBin Ge (EVar "version") (EInt 2))
     [SAssign [(EField (EVar "t") "IsolationLevel"); (EVar "err")] [(EMethod (EVar "d") "Int8" [])];
      SIf [] (EBin Ne (EVar "err") ENil)
       [SReturn [(EVar "err")]]
       []]
     [];
   SIf [SDefine ["n"; "err"] [(EMethod (EVar "d") "ArrayLength" [])]] (EBin Ne (EVar "err") ENil)
     [SReturn [(EVar "err")]]
     [SIf [] (EBin Ge (EVar "n") (EInt 0))
       [SAssign [(EField (EVar "t") "Topics")] [(EMake (GSlice (GNamed "ListOffsetTopic2")) (EVar "n"))];
        SFor [SDefine ["i"] [(EInt 0)]] (EBin Lt (EVar "i") (EVar "n")) [SOp (EVar "i") Add (EInt 1)]
         [SVar "item" (Some (GNamed "ListOffsetTopic2")) None;
          SIf [SDefine ["err"] [(EMethod (EAddr (EVar "item")) "Decode" [(EVar "d"); (EVar "version")])]] (EBin Ne (EVar "err") ENil)
           [SReturn [(EVar "err")]]
           [];
          SAssign [(EIndex (EField (EVar "t") "Topics") (EVar "i"))] [(EVar "item")]]]
       []];
   SReturn [(EVar "err")]].
(** message/messages.gen.go:1204 *)
Definition go_ListOffsetTopic2_Size : func := mkFunc [("t", GNamed "ListOffsetTopic2"); ("version", GInt I16)] [GInt I32]
  [SVar "sz" (Some (GInt I32)) None;
   SOp (EVar "sz") Add (ECall "sizeof.String" [(EField (EVar "t") "Name")]);
   SOp (EVar "sz") Add (EGlobal "sizeof.ArrayLength");
   SFor [SDefine ["i"] [(EBin Sub (ELen (EField (EVar "t") "Partitions")) (EInt 1))]] (EBin Ge (EVar "i") (EInt 0)) [SOp (EVar "i") Sub (EInt 1)]
     [SOp (EVar "sz") Add (EMethod (EIndex (EField (EVar "t") "Partitions") (EVar "i")) "Size" [(EVar "version")])];
   SReturn [(EVar "sz")]].
(** message/messages.gen.go:1215 *)
Definition go_ListOffsetTopic2_Encode : func := mkFunc [("t", GNamed "ListOffsetTopic2"); ("e", GPtr (GNamed "Encoder")); ("version", GInt I16)] []
  [SExpr (EMethod (EVar "e") "PutString" [(EField (EVar "t") "Name")]);
   SDefine ["len1"] [(ELen (EField (EVar "t") "Partitions"))];
   SExpr (EMethod (EVar "e") "PutArrayLength" [(EVar "len1")]);
   SFor [SDefine ["i"] [(EInt 0)]] (EBin Lt (EVar "i") (EVar "len1")) [SOp (EVar "i") Add (EInt 1)]
     [SExpr (EMethod (EIndex (EField (EVar "t") "Partitions") (EVar "i")) "Encode" [(EVar "e"); (EVar "version")])]].
(** message/messages.gen.go:1226 *)
Definition go_ListOffsetTopic2_Decode : func := mkFunc [("t", GPtr (GNamed "ListOffsetTopic2")); ("d", GPtr (GNamed "Decoder")); ("version", GInt I16)] [GNamed "error"]
  [SVar "err" (Some (GNamed "error")) None;
   SAssign [(EField (EVar "t") "Name"); (EVar "err")] [(EMethod (EVar "d") "String" [])];
   SIf [] (EBin Ne (EVar "err") ENil)
     [SReturn [(EVar "err")]]
     [];
   SIf [SDefine ["n"; "err"] [(EMethod (EVar "d") "ArrayLength" [])]] (EBin Ne (EVar "err") ENil)
     [SReturn [(EVar "err")]]
     [SIf [] (EBin Ge (EVar "n") (EInt 0))
       [SAssign [(EField (EVar "t") "Partitions")] [(EMake (GSlice (GNamed "ListOffsetPartition2")) (EVar "n"))];
        SFor [SDefine ["i"] [(EInt 0)]] (EBin Lt (EVar "i") (EVar "n")) [SOp (EVar "i") Add (EInt 1)]
         [SVar "item" (Some (GNamed "ListOffsetPartition2")) None;
          SIf [SDefine ["err"] [(EMethod (EAddr (EVar "item")) "Decode" [(EVar "d"); (EVar "version")])]] (EBin Ne (EVar "err") ENil)
           [SReturn [(EVar "err")]]
           [];
          SAssign [(EIndex (EField (EVar "t") "Partitions") (EVar "i"))] [(EVar "item")]]]
       []];
   SReturn [(EVar "err")]].
(** message/messages.gen.go:1256 *)
Definition go_ListOffsetPartition2_Size : func := mkFunc [("t", GNamed "ListOffsetPartition2"); ("version", GInt I16)] [GInt I32]
  [SVar "sz" (Some (GInt I32)) None;
   SOp (EVar "sz") Add (EGlobal "sizeof.Int32");
   SIf [] (EBin Ge (EVar "version") (EInt 4))
     [SOp (EVar "sz") Add (EGlobal "sizeof.Int32")]
     [];
   SOp (EVar "sz") Add (EGlobal "sizeof.Int64");
   SIf [] (EBin And (EBin Ge (EVar "version") (EInt 0)) (EBin Le (EVar "version") (EInt 0)))
     [SOp (EVar "sz") Add (EGlobal "sizeof.Int32")]
     [];
   SReturn [(EVar "sz")]].
(** message/messages.gen.go:1270 *)
Definition go_ListOffsetPartition2_Encode : func := mkFunc [("t", GNamed "ListOffsetPartition2"); ("e", GPtr (GNamed "Encoder")); ("version", GInt I16)] []
  [SExpr (EMethod (EVar "e") "PutInt32" [(EField (EVar "t") "PartitionIndex")]);
   SIf [] (EBin Ge (EVar "version") (EInt 4))
     [SExpr (EMethod (EVar "e") "PutInt32" [(EField (EVar "t") "CurrentLeaderEpoch")])]
     [];
   SExpr (EMethod (EVar "e") "PutInt64" [(EField (EVar "t") "Timestamp")]);
   SIf [] (EBin And (EBin Ge (EVar "version") (EInt 0)) (EBin Le (EVar "version") (EInt 0)))
     [SExpr (EMethod (EVar "e") "PutInt32" [(EField (EVar "t") "MaxNumOffsets")])]
     []].
(** message/messages.gen.go:1282 *)
Definition go_ListOffsetPartition2_Decode : func := mkFunc [("t", GPtr (GNamed "ListOffsetPartition2")); ("d", GPtr (GNamed "Decoder")); ("version", GInt I16)] [GNamed "error"]
  [SVar "err" (Some (GNamed "error")) None;
   SAssign [(EField (EVar "t") "PartitionIndex"); (EVar "err")] [(EMethod (EVar "d") "Int32" [])];
   SIf [] (EBin Ne (EVar "err") ENil)
     [SReturn [(EVar "err")]]
     [];
   SIf [] (EBin Ge (EVar "version") (EInt 4))
     [SAssign [(EField (EVar "t") "CurrentLeaderEpoch"); (EVar "err")] [(EMethod (EVar "d") "Int32" [])];
      SIf [] (EBin Ne (EVar "err") ENil)
       [SReturn [(EVar "err")]]
       []]
     [];
   SAssign [(EField (EVar "t") "Timestamp"); (EVar "err")] [(EMethod (EVar "d") "Int64" [])];
   SIf [] (EBin Ne (EVar "err") ENil)
     [SReturn [(EVar "err")]]
     [];
   SIf [] (EBin And (EBin Ge (EVar "version") (EInt 0)) (EBin Le (EVar "version") (EInt 0)))
     [SAssign [(EField (EVar "t") "MaxNumOffsets"); (EVar "err")] [(EMethod (EVar "d") "Int32" [])];
      SIf [] (EBin Ne (EVar "err") ENil)
       [SReturn [(EVar "err")]]
       []]
     [];
   SReturn [(EVar "err")]].
(** message/messages.gen.go:1314 *)
Definition go_ListOffsetResponse_Size : func := mkFunc [("t", GNamed "ListOffsetResponse"); ("version", GInt I16)] [GInt I32]
  [SVar "sz" (Some (GInt I32)) None;
   SIf [] (EBin Ge (EVar "version") (EInt 2))
     [SOp (EVar "sz") Add (EGlobal "sizeof.Int32")]
     [];
   SOp (EVar "sz") Add (EGlobal "sizeof.ArrayLength");
   SFor [SDefine ["i"] [(EBin Sub (ELen (EField (EVar "t") "Topics")) (EInt 1))]] (EBin Ge (EVar "i") (EInt 0)) [SOp (EVar "i") Sub (EInt 1)]
     [SOp (EVar "sz") Add (EMethod (EIndex (EField (EVar "t") "Topics") (EVar "i")) "Size" [(EVar "version")])];
   SReturn [(EVar "sz")]].
(** message/messages.gen.go:1327 *)
Definition go_ListOffsetResponse_Encode : func := mkFunc [("t", GNamed "ListOffsetResponse"); ("e", GPtr (GNamed "Encoder")); ("version", GInt I16)] []
  [SIf [] (EBin Ge (EVar "version") (EInt 2))
     [SExpr (EMethod (EVar "e") "PutInt32" [(EField (EVar "t") "ThrottleTimeMs")])]
     [];
   SDefine ["len1"] [(ELen (EField (EVar "t") "Topics"))];
   SExpr (EMethod (EVar "e") "PutArrayLength" [(EVar "len1")]);
   SFor [SDefine ["i"] [(EInt 0)]] (EBin Lt (EVar "i") (EVar "len1")) [SOp (EVar "i") Add (EInt 1)]
     [SExpr (EMethod (EIndex (EField (EVar "t") "Topics") (EVar "i")) "Encode" [(EVar "e"); (EVar "version")])]].
(** message/messages.gen.go:1340 *)
Definition go_ListOffsetResponse_Decode : func := mkFunc [("t", GPtr (GNamed "ListOffsetResponse")); ("d", GPtr (GNamed "Decoder")); ("version", GInt I16)] [GNamed "error"]
  [SVar "err" (Some (GNamed "error")) None;
   SIf [] (EBin Ge (EVar "version") (EInt 2))
     [SAssign [(EField (EVar "t") "ThrottleTimeMs"); (EVar "err")] [(EMethod (EVar "d") "Int32" [])];
      SIf [] (EBin Ne (EVar "err") ENil)
       [SReturn [(EVar "err")]]
       []]
     [];
   SIf [SDefine ["n"; "err"] [(EMethod (EVar "d") "ArrayLength" [])]] (EBin Ne (EVar "err") ENil)
     [SReturn [(EVar "err")]]
     [SIf [] (EBin Ge (EVar "n") (EInt 0))
       [SAssign [(EField (EVar "t") "Topics")] [(EMake (GSlice (GNamed "ListOffsetTopicResponse2")) (EVar "n"))];
        SFor [SDefine ["i"] [(EInt 0)]] (EBin Lt (EVar "i") (EVar "n")) [SOp (EVar "i") Add (EInt 1)]
         [SVar "item" (Some (GNamed "ListOffsetTopicResponse2")) None;
          SIf [SDefine ["err"] [(EMethod (EAddr (EVar "item")) "Decode" [(EVar "d"); (EVar "version")])]] (EBin Ne (EVar "err") ENil)
           [SReturn [(EVar "err")]]
           [];
          SAssign [(EIndex (EField (EVar "t") "Topics") (EVar "i"))] [(EVar "item")]]]
       []];
   SReturn [(EVar "err")]].
(** message/messages.gen.go:1370 *)
Definition go_ListOffsetTopicResponse2_Size : func := mkFunc [("t", GNamed "ListOffsetTopicResponse2"); ("version", GInt I16)] [GInt I32]
  [SVar "sz" (Some (GInt I32)) None;
   SOp (EVar "sz") Add (ECall "sizeof.String" [(EField (EVar "t") "Name")]);
   SOp (EVar "sz") Add (EGlobal "sizeof.ArrayLength");
   SFor [SDefine ["i"] [(EBin Sub (ELen (EField (EVar "t") "Partitions")) (EInt 1))]] (EBin Ge (EVar "i") (EInt 0)) [SOp (EVar "i") Sub (EInt 1)]
     [SOp (EVar "sz") Add (EMethod (EIndex (EField (EVar "t") "Partitions") (EVar "i")) "Size" [(EVar "version")])];
   SReturn [(EVar "sz")]].
(** message/messages.gen.go:1381 *)
Definition go_ListOffsetTopicResponse2_Encode : func := mkFunc [("t", GNamed "ListOffsetTopicResponse2"); ("e", GPtr (GNamed "Encoder")); ("version", GInt I16)] []
  [SExpr (EMethod (EVar "e") "PutString" [(EField (EVar "t") "Name")]);
   SDefine ["len1"] [(ELen (EField (EVar "t") "Partitions"))];
   SExpr (EMethod (EVar "e") "PutArrayLength" [(EVar "len1")]);
   SFor [SDefine ["i"] [(EInt 0)]] (EBin Lt (EVar "i") (EVar "len1")) [SOp (EVar "i") Add (EInt 1)]
     [SExpr (EMethod (EIndex (EField (EVar "t") "Partitions") (EVar "i")) "Encode" [(EVar "e"); (EVar "version")])]].
(** message/messages.gen.go:1392 *)
Definition go_ListOffsetTopicResponse2_Decode : func := mkFunc [("t", GPtr (GNamed "ListOffsetTopicResponse2")); ("d", GPtr (GNamed "Decoder")); ("version", GInt I16)] [GNamed "error"]
  [SVar "err" (Some (GNamed "error")) None;
   SAssign [(EField (EVar "t") "Name"); (EVar "err")] [(EMethod (EVar "d") "String" [])];
   SIf [] (EBin Ne (EVar "err") ENil)
     [SReturn [(EVar "err")]]
     [];
   SIf [SDefine ["n"; "err"] [(EMethod (EVar "d") "ArrayLength" [])]] (EBin Ne (EVar "err") ENil)
     [SReturn [(EVar "err")]]
     [SIf [] (EBin Ge (EVar "n") (EInt 0))
       [SAssign [(EField (EVar "t") "Partitions")] [(EMake (GSlice (GNamed "ListOffsetPartitionResponse2")) (EVar "n"))];
        SFor [SDefine ["i"] [(EInt 0)]] (EBin Lt (EVar "i") (EVar "n")) [SOp (EVar "i") Add (EInt 1)]
         [SVar "item" (Some (GNamed "ListOffsetPartitionResponse2")) None;
          SIf [SDefine ["err"] [(EMethod (EAddr (EVar "item")) "Decode" [(EVar "d"); (EVar "version")])]] (EBin Ne (EVar "err") ENil)
           [SReturn [(EVar "err")]]
           [];
          SAssign [(EIndex (EField (EVar "t") "Partitions") (EVar "i"))] [(EVar "item")]]]
       []];
   SReturn [(EVar "err")]].
(** message/messages.gen.go:1424 *)
Definition go_ListOffsetPartitionResponse2_Size : func := mkFunc [("t", GNamed "ListOffsetPartitionResponse2"); ("version", GInt I16)] [GInt I32]
  [SVar "sz" (Some (GInt I32)) None;
   SOp (EVar "sz") Add (EGlobal "sizeof.Int32");
   SOp (EVar "sz") Add (EGlobal "sizeof.Int16");
   SIf [] (EBin And (EBin Ge (EVar "version") (EInt 0)) (EBin Le (EVar "version") (EInt 0)))
     [SOp (EVar "sz") Add (ECall "sizeof.Int64Array" [(EField (EVar "t") "OldStyleOffsets")])]
     [];
   SIf [] (EBin Ge (EVar "version") (EInt 1))
     [SOp (EVar "sz") Add (EGlobal "sizeof.Int64")]
     [];
   SIf [] (EBin Ge (EVar "version") (EInt 1))
     [SOp (EVar "sz") Add (EGlobal "sizeof.Int64")]
     [];
   SIf [] (EBin Ge (EVar "version") (EInt 4))
     [SOp (EVar "sz") Add (EGlobal "sizeof.Int32")]
     [];
   SReturn [(EVar "sz")]].
(** message/messages.gen.go:1444 *)
Definition go_ListOffsetPartitionResponse2_Encode : func := mkFunc [("t", GNamed "ListOffsetPartitionResponse2"); ("e", GPtr (GNamed "Encoder")); ("version", GInt I16)] []
  [SExpr (EMethod (EVar "e") "PutInt32" [(EField (EVar "t") "PartitionIndex")]);
   SExpr (EMethod (EVar "e") "PutInt16" [(EField (EVar "t") "ErrorCode")]);
   SIf [] (EBin And (EBin Ge (EVar "version") (EInt 0)) (EBin Le (EVar "version") (EInt 0)))
     [SExpr (EMethod (EVar "e") "PutInt64Array" [(EField (EVar "t") "OldStyleOffsets")])]
     [];
   SIf [] (EBin Ge (EVar "version") (EInt 1))
     [SExpr (EMethod (EVar "e") "PutInt64" [(EField (EVar "t") "Timestamp")])]
     [];
   SIf [] (EBin Ge (EVar "version") (EInt 1))
     [SExpr (EMethod (EVar "e") "PutInt64" [(EField (EVar "t") "Offset")])]
     [];
   SIf [] (EBin Ge (EVar "version") (EInt 4))
     [SExpr (EMethod (EVar "e") "PutInt32" [(EField (EVar "t") "LeaderEpoch")])]
     []].
(** message/messages.gen.go:1462 *)
Definition go_ListOffsetPartitionResponse2_Decode : func := mkFunc [("t", GPtr (GNamed "ListOffsetPartitionResponse2")); ("d", GPtr (GNamed "Decoder")); ("version", GInt I16)] [GNamed "error"]
  [SVar "err" (Some (GNamed "error")) None;
   SAssign [(EField (EVar "t") "PartitionIndex"); (EVar "err")] [(EMethod (EVar "d") "Int32" [])];
   SIf [] (EBin Ne (EVar "err") ENil)
     [SReturn [(EVar "err")]]
     [];
   SAssign [(EField (EVar "t") "ErrorCode"); (EVar "err")] [(EMethod (EVar "d") "Int16" [])];
   SIf [] (EBin Ne (EVar "err") ENil)
     [SReturn [(EVar "err")]]
     [];
   SIf [] (EBin And (EBin Ge (EVar "version") (EInt 0)) (EBin Le (EVar "version") (EInt 0)))
     [SAssign [(EField (EVar "t") "OldStyleOffsets"); (EVar "err")] [(EMethod (EVar "d") "Int64Array" [])];
      SIf [] (EBin Ne (EVar "err") ENil)
       [SReturn [(EVar "err")]]
       []]
     [];
   SIf [] (EBin Ge (EVar "version") (EInt 1))
     [SAssign [(EField (EVar "t") "Timestamp"); (EVar "err")] [(EMethod (EVar "d") "Int64" [])];
      SIf [] (EBin Ne (EVar "err") ENil)
       [SReturn [(EVar "err")]]
       []]
     [];
   SIf [] (EBin Ge (EVar "version") (EInt 1))
     [SAssign [(EField (EVar "t") "Offset"); (EVar "err")] [(EMethod (EVar "d") "Int64" [])];
      SIf [] (EBin Ne (EVar "err") ENil)
       [SReturn [(EVar "err")]]
       []]
     [];
   SIf [] (EBin Ge (EVar "version") (EInt 4))
     [SAssign [(EField (EVar "t") "LeaderEpoch"); (EVar "err")] [(EMethod (EVar "d") "Int32" [])];
      SIf [] (EBin Ne (EVar "err") ENil)
       [SReturn [(EVar "err")]]
       []]
     [];
   SReturn [(EVar "err")]].
(** message/messages.gen.go:1508 *)
Definition go_MetadataRequest_Size : func := mkFunc [("t", GNamed "MetadataRequest"); ("version", GInt I16)] [GInt I32]
  [SVar "sz" (Some (GInt I32)) None;
   SOp (EVar "sz") Add (EGlobal "sizeof.ArrayLength");
   SFor [SDefine ["i"] [(EBin Sub (ELen (EField (EVar "t") "Topics")) (EInt 1))]] (EBin Ge (EVar "i") (EInt 0)) [SOp (EVar "i") Sub (EInt 1)]
     [SOp (EVar "sz") Add (EMethod (EIndex (EField (EVar "t") "Topics") (EVar "i")) "Size" [(EVar "version")])];
   SIf [] (EBin Ge (EVar "version") (EInt 4))
     [SOp (EVar "sz") Add (EGlobal "sizeof.Bool")]
     [];
   SIf [] (EBin Ge (EVar "version") (EInt 8))
     [SOp (EVar "sz") Add (EGlobal "sizeof.Bool")]
     [];
   SIf [] (EBin Ge (EVar "version") (EInt 8))
     [SOp (EVar "sz") Add (EGlobal "sizeof.Bool")]
     [];
   SReturn [(EVar "sz")]].
(** message/messages.gen.go:1527 *)
Definition go_MetadataRequest_Encode : func := mkFunc [("t", GNamed "MetadataRequest"); ("e", GPtr (GNamed "Encoder")); ("version", GInt I16)] []
  [SDefine ["len0"] [(ELen (EField (EVar "t") "Topics"))];
   SExpr (EMethod (EVar "e") "PutArrayLength" [(EVar "len0")]);
   SFor [SDefine ["i"] [(EInt 0)]] (EBin Lt (EVar "i") (EVar "len0")) [SOp (EVar "i") Add (EInt 1)]
     [SExpr (EMethod (EIndex (EField (EVar "t") "Topics") (EVar "i")) "Encode" [(EVar "e"); (EVar "version")])];
   SIf [] (EBin Ge (EVar "version") (EInt 4))
     [SExpr (EMethod (EVar "e") "PutBool" [(EField (EVar "t") "AllowAutoTopicCreation")])]
     [];
   SIf [] (EBin Ge (EVar "version") (EInt 8))
     [SExpr (EMethod (EVar "e") "PutBool" [(EField (EVar "t") "IncludeClusterAuthorizedOperations")])]
     [];
   SIf [] (EBin Ge (EVar "version") (EInt 8))
     [SExpr (EMethod (EVar "e") "PutBool" [(EField (EVar "t") "IncludeTopicAuthorizedOperations")])]
     []].
(** message/messages.gen.go:1546 *)
Definition go_MetadataRequest_Decode : func := mkFunc [("t", GPtr (GNamed "MetadataRequest")); ("d", GPtr (GNamed "Decoder")); ("version", GInt I16)] [GNamed "error"]
  [SVar "err" (Some (GNamed "error")) None;
   SIf [SDefine ["n"; "err"] [(EMethod (EVar "d") "ArrayLength" [])]] (EBin Ne (EVar "err") ENil)
     [SReturn [(EVar "err")]]
     [SIf [] (EBin Ge (EVar "n") (EInt 0))
       [SAssign [(EField (EVar "t") "Topics")] [(EMake (GSlice (GNamed "MetadataRequestTopic3")) (EVar "n"))];
        SFor [SDefine ["i"] [(EInt 0)]] (EBin Lt (EVar "i") (EVar "n")) [SOp (EVar "i") Add (EInt 1)]
         [SVar "item" (Some (GNamed "MetadataRequestTopic3")) None;
          SIf [SDefine ["err"] [(EMethod (EAddr (EVar "item")) "Decode" [(EVar "d"); (EVar "version")])]] (EBin Ne (EVar "err") ENil)
           [SReturn [(EVar "err")]]
           [];
          SAssign [(EIndex (EField (EVar "t") "Topics") (EVar "i"))] [(EVar "item")]]]
       []];
   SIf [] (EBin Ge (EVar "version") (EInt 4))
     [SAssign [(EField (EVar "t") "AllowAutoTopicCreation"); (EVar "err")] [(EMethod (EVar "d") "Bool" [])];
      SIf [] (EBin Ne (EVar "err") ENil)
       [SReturn [(EVar "err")]]
       []]
     [];
   SIf [] (EBin Ge (EVar "version") (EInt 8))
     [SAssign [(EField (EVar "t") "IncludeClusterAuthorizedOperations"); (EVar "err")] [(EMethod (EVar "d") "Bool" [])];
      SIf [] (EBin Ne (EVar "err") ENil)
       [SReturn [(EVar "err")]]
       []]
     [];
   SIf [] (EBin Ge (EVar "version") (EInt 8))
     [SAssign [(EField (EVar "t") "IncludeTopicAuthorizedOperations"); (EVar "err")] [(EMethod (EVar "d") "Bool" [])];
      SIf [] (EBin Ne (EVar "err") ENil)
       [SReturn [(EVar "err")]]
       []]
     [];
   SReturn [(EVar "err")]].
(** message/messages.gen.go:1587 *)
Definition go_MetadataRequestTopic3_Size : func := mkFunc [("t", GNamed "MetadataRequestTopic3"); ("version", GInt I16)] [GInt I32]
  [SVar "sz" (Some (GInt I32)) None;
   SOp (EVar "sz") Add (ECall "sizeof.String" [(EField (EVar "t") "Name")]);
   SReturn [(EVar "sz")]].
(** message/messages.gen.go:1594 *)
Definition go_MetadataRequestTopic3_Encode : func := mkFunc [("t", GNamed "MetadataRequestTopic3"); ("e", GPtr (GNamed "Encoder")); ("version", GInt I16)] []
  [SExpr (EMethod (EVar "e") "PutString" [(EField (EVar "t") "Name")])].
(** message/messages.gen.go:1599 *)
Definition go_MetadataRequestTopic3_Decode : func := mkFunc [("t", GPtr (GNamed "MetadataRequestTopic3")); ("d", GPtr (GNamed "Decoder")); ("version", GInt I16)] [GNamed "error"]
  [SVar "err" (Some (GNamed "error")) None;
   SAssign [(EField (EVar "t") "Name"); (EVar "err")] [(EMethod (EVar "d") "String" [])];
   SIf [] (EBin Ne (EVar "err") ENil)
     [SReturn [(EVar "err")]]
     [];
   SReturn [(EVar "err")]].
(** message/messages.gen.go:1619 *)
Definition go_MetadataResponse_Size : func := mkFunc [("t", GNamed "MetadataResponse"); ("version", GInt I16)] [GInt I32]
  [SVar "sz" (Some (GInt I32)) None;
   SIf [] (EBin Ge (EVar "version") (EInt 3))
     [SOp (EVar "sz") Add (EGlobal "sizeof.Int32")]
     [];
   SOp (EVar "sz") Add (EGlobal "sizeof.ArrayLength");
   SFor [SDefine ["i"] [(EBin Sub (ELen (EField (EVar "t") "Brokers")) (EInt 1))]] (EBin Ge (EVar "i") (EInt 0)) [SOp (EVar "i") Sub (EInt 1)]
     [SOp (EVar "sz") Add (EMethod (EIndex (EField (EVar "t") "Brokers") (EVar "i")) "Size" [(EVar "version")])];
   SIf [] (EBin Ge (EVar "version") (EInt 2))
     [SOp (EVar "sz") Add (ECall "sizeof.String" [(EField (EVar "t") "ClusterId")])]
     [];
   SIf [] (EBin Ge (EVar "version") (EInt 1))
     [SOp (EVar "sz") Add (EGlobal "sizeof.Int32")]
     [];
   SOp (EVar "sz") Add (EGlobal "sizeof.ArrayLength");
   SFor [SDefine ["i"] [(EBin Sub (ELen (EField (EVar "t") "Topics")) (EInt 1))]] (EBin Ge (EVar "i") (EInt 0)) [SOp (EVar "i") Sub (EInt 1)]
     [SOp (EVar "sz") Add (EMethod (EIndex (EField (EVar "t") "Topics") (EVar "i")) "Size" [(EVar "version")])];
   SIf [] (EBin Ge (EVar "version") (EInt 8))
     [SOp (EVar "sz") Add (EGlobal "sizeof.Int32")]
     [];
   SReturn [(EVar "sz")]].
(** message/messages.gen.go:1645 *)
Definition go_MetadataResponse_Encode : func := mkFunc [("t", GNamed "MetadataResponse"); ("e", GPtr (GNamed "Encoder")); ("version", GInt I16)] []
  [SIf [] (EBin Ge (EVar "version") (EInt 3))
     [SExpr (EMethod (EVar "e") "PutInt32" [(EField (EVar "t") "ThrottleTimeMs")])]
     [];
   SDefine ["len1"] [(ELen (EField (EVar "t") "Brokers"))];
   SExpr (EMethod (EVar "e") "PutArrayLength" [(EVar "len1")]);
   SFor [SDefine ["i"] [(EInt 0)]] (EBin Lt (EVar "i") (EVar "len1")) [SOp (EVar "i") Add (EInt 1)]
     [SExpr (EMethod (EIndex (EField (EVar "t") "Brokers") (EVar "i")) "Encode" [(EVar "e"); (EVar "version")])];
   SIf [] (EBin Ge (EVar "version") (EInt 2))
     [SExpr (EMethod (EVar "e") "PutString" [(EField (EVar "t") "ClusterId")])]
     [];
   SIf [] (EBin Ge (EVar "version") (EInt 1))
     [SExpr (EMethod (EVar "e") "PutInt32" [(EField (EVar "t") "ControllerId")])]
     [];
   SDefine ["len4"] [(ELen (EField (EVar "t") "Topics"))];
   SExpr (EMethod (EVar "e") "PutArrayLength" [(EVar "len4")]);
   SFor [SDefine ["i"] [(EInt 0)]] (EBin Lt (EVar "i") (EVar "len4")) [SOp (EVar "i") Add (EInt 1)]
     [SExpr (EMethod (EIndex (EField (EVar "t") "Topics") (EVar "i")) "Encode" [(EVar "e"); (EVar "version")])];
   SIf [] (EBin Ge (EVar "version") (EInt 8))
     [SExpr (EMethod (EVar "e") "PutInt32" [(EField (EVar "t") "ClusterAuthorizedOperations")])]
     []].
(** message/messages.gen.go:1673 *)
Definition go_MetadataResponse_Decode : func := mkFunc [("t", GPtr (GNamed "MetadataResponse")); ("d", GPtr (GNamed "Decoder")); ("version", GInt I16)] [GNamed "error"]
  [SVar "err" (Some (GNamed "error")) None;
   SIf [] (EBin Ge (EVar "version") (EInt 3))
     [SAssign [(EField (EVar "t") "ThrottleTimeMs"); (EVar "err")] [(EMethod (EVar "d") "Int32" [])];
      SIf [] (EBin Ne (EVar "err") ENil)
       [SReturn [(EVar "err")]]
       []]
     [];
   SIf [SDefine ["n"; "err"] [(EMethod (EVar "d") "ArrayLength" [])]] (EBin Ne (EVar "err") ENil)
     [SReturn [(EVar "err")]]
     [SIf [] (EBin Ge (EVar "n") (EInt 0))
       [SAssign [(EField (EVar "t") "Brokers")] [(EMake (GSlice (GNamed "MetadataResponseBroker3")) (EVar "n"))];
        SFor [SDefine ["i"] [(EInt 0)]] (EBin Lt (EVar "i") (EVar "n")) [SOp (EVar "i") Add (EInt 1)]
         [SVar "item" (Some (GNamed "MetadataResponseBroker3")) None;
          SIf [SDefine ["err"] [(EMethod (EAddr (EVar "item")) "Decode" [(EVar "d"); (EVar "version")])]] (EBin Ne (EVar "err") ENil)
           [SReturn [(EVar "err")]]
           [];
          SAssign [(EIndex (EField (EVar "t") "Brokers") (EVar "i"))] [(EVar "item")]]]
       []];
   SIf [] (EBin Ge (EVar "version") (EInt 2))
     [SAssign [(EField (EVar "t") "ClusterId"); (EVar "err")] [(EMethod (EVar "d") "String" [])];
      SIf [] (EBin Ne (EVar "err") ENil)
       [SReturn [(EVar "err")]]
       []]
     [];
   SIf [] (EBin Ge (EVar "version") (EInt 1))
     [SAssign [(EField (EVar "t") "ControllerId"); (EVar "err")] [(EMethod (EVar "d") "Int32" [])];
      SIf [] (EBin Ne (EVar "err") ENil)
       [SReturn [(EVar "err")]]
       []]
     [];
   SIf [SDefine ["n"; "err"] [(EMethod (EVar "d") "ArrayLength" [])]] (EBin Ne (EVar "err") ENil)
     [SReturn [(EVar "err")]]
     [SIf [] (EBin Ge (EVar "n") (EInt 0))
       [SAssign [(EField (EVar "t") "Topics")] [(EMake (GSlice (GNamed "MetadataResponseTopic3")) (EVar "n"))];
        SFor [SDefine ["i"] [(EInt 0)]] (EBin Lt (EVar "i") (EVar "n")) [SOp (EVar "i") Add (EInt 1)]
         [SVar "item" (Some (GNamed "MetadataResponseTopic3")) None;
          SIf [SDefine ["err"] [(EMethod (EAddr (EVar "item")) "Decode" [(EVar "d"); (EVar "version")])]] (EBin Ne (EVar "err") ENil)
           [SReturn [(EVar "err")]]
           [];
          SAssign [(EIndex (EField (EVar "t") "Topics") (EVar "i"))] [(EVar "item")]]]
       []];
   SIf [] (EBin Ge (EVar "version") (EInt 8))
     [SAssign [(EField (EVar "t") "ClusterAuthorizedOperations"); (EVar "err")] [(EMethod (EVar "d") "Int32" [])];
      SIf [] (EBin Ne (EVar "err") ENil)
       [SReturn [(EVar "err")]]
       []]
     [];
   SReturn [(EVar "err")]].
(** message/messages.gen.go:1736 *)
Definition go_MetadataResponseBroker3_Size : func := mkFunc [("t", GNamed "MetadataResponseBroker3"); ("version", GInt I16)] [GInt I32]
  [SVar "sz" (Some (GInt I32)) None;
   SOp (EVar "sz") Add (EGlobal "sizeof.Int32");
   SOp (EVar "sz") Add (ECall "sizeof.String" [(EField (EVar "t") "Host")]);
   SOp (EVar "sz") Add (EGlobal "sizeof.Int32");
   SIf [] (EBin Ge (EVar "version") (EInt 1))
     [SOp (EVar "sz") Add (ECall "sizeof.String" [(EField (EVar "t") "Rack")])]
     [];
   SReturn [(EVar "sz")]].
(** message/messages.gen.go:1748 *)
Definition go_MetadataResponseBroker3_Encode : func := mkFunc [("t", GNamed "MetadataResponseBroker3"); ("e", GPtr (GNamed "Encoder")); ("version", GInt I16)] []
  [SExpr (EMethod (EVar "e") "PutInt32" [(EField (EVar "t") "NodeId")]);
   SExpr (EMethod (EVar "e") "PutString" [(EField (EVar "t") "Host")]);
   SExpr (EMethod (EVar "e") "PutInt32" [(EField (EVar "t") "Port")]);
   SIf [] (EBin Ge (EVar "version") (EInt 1))
     [SExpr (EMethod (EVar "e") "PutString" [(EField (EVar "t") "Rack")])]
     []].
(** message/messages.gen.go:1758 *)
Definition go_MetadataResponseBroker3_Decode : func := mkFunc [("t", GPtr (GNamed "MetadataResponseBroker3")); ("d", GPtr (GNamed "Decoder")); ("version", GInt I16)] [GNamed "error"]
  [SVar "err" (Some (GNamed "error")) None;
   SAssign [(EField (EVar "t") "NodeId"); (EVar "err")] [(EMethod (EVar "d") "Int32" [])];
   SIf [] (EBin Ne (EVar "err") ENil)
     [SReturn [(EVar "err")]]
     [];
   SAssign [(EField (EVar "t") "Host"); (EVar "err")] [(EMethod (EVar "d") "String" [])];
   SIf [] (EBin Ne (EVar "err") ENil)
     [SReturn [(EVar "err")]]
     [];
   SAssign [(EField (EVar "t") "Port"); (EVar "err")] [(EMethod (EVar "d") "Int32" [])];
   SIf [] (EBin Ne (EVar "err") ENil)
     [SReturn [(EVar "err")]]
     [];
   SIf [] (EBin Ge (EVar "version") (EInt 1))
     [SAssign [(EField (EVar "t") "Rack"); (EVar "err")] [(EMethod (EVar "d") "String" [])];
      SIf [] (EBin Ne (EVar "err") ENil)
       [SReturn [(EVar "err")]]
       []]
     [];
   SReturn [(EVar "err")]].
(** message/messages.gen.go:1790 *)
Definition go_MetadataResponseTopic3_Size : func := mkFunc [("t", GNamed "MetadataResponseTopic3"); ("version", GInt I16)] [GInt I32]
  [SVar "sz" (Some (GInt I32)) None;
   SOp (EVar "sz") Add (EGlobal "sizeof.Int16");
   SOp (EVar "sz") Add (ECall "sizeof.String" [(EField (EVar "t") "Name")]);
   SIf [] (EBin Ge (EVar "version") (EInt 1))
     [SOp (EVar "sz") Add (EGlobal "sizeof.Bool")]
     [];
   SOp (EVar "sz") Add (EGlobal "sizeof.ArrayLength");
   SFor [SDefine ["i"] [(EBin Sub (ELen (EField (EVar "t") "Partitions")) (EInt 1))]] (EBin Ge (EVar "i") (EInt 0)) [SOp (EVar "i") Sub (EInt 1)]
     [SOp (EVar "sz") Add (EMethod (EIndex (EField (EVar "t") "Partitions") (EVar "i")) "Size" [(EVar "version")])];
   SIf [] (EBin Ge (EVar "version") (EInt 8))
     [SOp (EVar "sz") Add (EGlobal "sizeof.Int32")]
     [];
   SReturn [(EVar "sz")]].
(** message/messages.gen.go:1808 *)
Definition go_MetadataResponseTopic3_Encode : func := mkFunc [("t", GNamed "MetadataResponseTopic3"); ("e", GPtr (GNamed "Encoder")); ("version", GInt I16)] []
  [SExpr (EMethod (EVar "e") "PutInt16" [(EField (EVar "t") "ErrorCode")]);
   SExpr (EMethod (EVar "e") "PutString" [(EField (EVar "t") "Name")]);
   SIf [] (EBin Ge (EVar "version") (EInt 1))
     [SExpr (EMethod (EVar "e") "PutBool" [(EField (EVar "t") "IsInternal")])]
     [];
   SDefine ["len3"] [(ELen (EField (EVar "t") "Partitions"))];
   SExpr (EMethod (EVar "e") "PutArrayLength" [(EVar "len3")]);
   SFor [SDefine ["i"] [(EInt 0)]] (EBin Lt (EVar "i") (EVar "len3")) [SOp (EVar "i") Add (EInt 1)]
     [SExpr (EMethod (EIndex (EField (EVar "t") "Partitions") (EVar "i")) "Encode" [(EVar "e"); (EVar "version")])];
   SIf [] (EBin Ge (EVar "version") (EInt 8))
     [SExpr (EMethod (EVar "e") "PutInt32" [(EField (EVar "t") "TopicAuthorizedOperations")])]
     []].
(** message/messages.gen.go:1826 *)
Definition go_MetadataResponseTopic3_Decode : func := mkFunc [("t", GPtr (GNamed "MetadataResponseTopic3")); ("d", GPtr (GNamed "Decoder")); ("version", GInt I16)] [GNamed "error"]
  [SVar "err" (Some (GNamed "error")) None;
   SAssign [(EField (EVar "t") "ErrorCode"); (EVar "err")] [(EMethod (EVar "d") "Int16" [])];
   SIf [] (EBin Ne (EVar "err") ENil)
     [SReturn [(EVar "err")]]
     [];
   SAssign [(EField (EVar "t") "Name"); (EVar "err")] [(EMethod (EVar "d") "String" [])];
   SIf [] (EBin Ne (EVar "err") ENil)
     [SReturn [(EVar "err")]]
     [];
   SIf [] (EBin Ge (EVar "version") (EInt 1))
     [SAssign [(EField (EVar "t") "IsInternal"); (EVar "err")] [(EMethod (EVar "d") "Bool" [])];
      SIf [] (EBin Ne (EVar "err") ENil)
       [SReturn [(EVar "err")]]
       []]
     [];
   SIf [SDefine ["n"; "err"] [(EMethod (EVar "d") "ArrayLength" [])]] (EBin Ne (EVar "err") ENil)
     [SReturn [(EVar "err")]]
     [SIf [] (EBin Ge (EVar "n") (EInt 0))
       [SAssign [(EField (EVar "t") "Partitions")] [(EMake (GSlice (GNamed "MetadataResponsePartition3")) (EVar "n"))];
        SFor [SDefine ["i"] [(EInt 0)]] (EBin Lt (EVar "i") (EVar "n")) [SOp (EVar "i") Add (EInt 1)]
         [SVar "item" (Some (GNamed "MetadataResponsePartition3")) None;
          SIf [SDefine ["err"] [(EMethod (EAddr (EVar "item")) "Decode" [(EVar "d"); (EVar "version")])]] (EBin Ne (EVar "err") ENil)
           [SReturn [(EVar "err")]]
           [];
          SAssign [(EIndex (EField (EVar "t") "Partitions") (EVar "i"))] [(EVar "item")]]]
       []];
   SIf [] (EBin Ge (EVar "version") (EInt 8))
     [SAssign [(EField (EVar "t") "TopicAuthorizedOperations"); (EVar "err")] [(EMethod (EVar "d") "Int32" [])];
      SIf [] (EBin Ne (EVar "err") ENil)
       [SReturn [(EVar "err")]]
       []]
     [];
   SReturn [(EVar "err")]].
(** message/messages.gen.go:1875 *)
Definition go_MetadataResponsePartition3_Size : func := mkFunc [("t", GNamed "MetadataResponsePartition3"); ("version", GInt I16)] [GInt I32]
  [SVar "sz" (Some (GInt I32)) None;
   SOp (EVar "sz") Add (EGlobal "sizeof.Int16");
   SOp (EVar "sz") Add (EGlobal "sizeof.Int32");
   SOp (EVar "sz") Add (EGlobal "sizeof.Int32");
   SIf [] (EBin Ge (EVar "version") (EInt 7))
     [SOp (EVar "sz") Add (EGlobal "sizeof.Int32")]
     [];
   SOp (EVar "sz") Add (ECall "sizeof.Int32Array" [(EField (EVar "t") "ReplicaNodes")]);
   SOp (EVar "sz") Add (ECall "sizeof.Int32Array" [(EField (EVar "t") "IsrNodes")]);
   SIf [] (EBin Ge (EVar "version") (EInt 5))
     [SOp (EVar "sz") Add (ECall "sizeof.Int32Array" [(EField (EVar "t") "OfflineReplicas")])]
     [];
   SReturn [(EVar "sz")]].
(** message/messages.gen.go:1892 *)
Definition go_MetadataResponsePartition3_Encode : func := mkFunc [("t", GNamed "MetadataResponsePartition3"); ("e", GPtr (GNamed "Encoder")); ("version", GInt I16)] []
  [SExpr (EMethod (EVar "e") "PutInt16" [(EField (EVar "t") "ErrorCode")]);
   SExpr (EMethod (EVar "e") "PutInt32" [(EField (EVar "t") "PartitionIndex")]);
   SExpr (EMethod (EVar "e") "PutInt32" [(EField (EVar "t") "LeaderId")]);
   SIf [] (EBin Ge (EVar "version") (EInt 7))
     [SExpr (EMethod (EVar "e") "PutInt32" [(EField (EVar "t") "LeaderEpoch")])]
     [];
   SExpr (EMethod (EVar "e") "PutInt32Array" [(EField (EVar "t") "ReplicaNodes")]);
   SExpr (EMethod (EVar "e") "PutInt32Array" [(EField (EVar "t") "IsrNodes")]);
   SIf [] (EBin Ge (EVar "version") (EInt 5))
     [SExpr (EMethod (EVar "e") "PutInt32Array" [(EField (EVar "t") "OfflineReplicas")])]
     []].
(** message/messages.gen.go:1907 *)
Definition go_MetadataResponsePartition3_Decode : func := mkFunc [("t", GPtr (GNamed "MetadataResponsePartition3")); ("d", GPtr (GNamed "Decoder")); ("version", GInt I16)] [GNamed "error"]
  [SVar "err" (Some (GNamed "error")) None;
   SAssign [(EField (EVar "t") "ErrorCode"); (EVar "err")] [(EMethod (EVar "d") "Int16" [])];
   SIf [] (EBin Ne (EVar "err") ENil)
     [SReturn [(EVar "err")]]
     [];
   SAssign [(EField (EVar "t") "PartitionIndex"); (EVar "err")] [(EMethod (EVar "d") "Int32" [])];
   SIf [] (EBin Ne (EVar "err") ENil)
     [SReturn [(EVar "err")]]
     [];
   SAssign [(EField (EVar "t") "LeaderId"); (EVar "err")] [(EMethod (EVar "d") "Int32" [])];
   SIf [] (EBin Ne (EVar "err") ENil)
     [SReturn [(EVar "err")]]
     [];
   SIf [] (EBin Ge (EVar "version") (EInt 7))
     [SAssign [(EField (EVar "t") "LeaderEpoch"); (EVar "err")] [(EMethod (EVar "d") "Int32" [])];
      SIf [] (EBin Ne (EVar "err") ENil)
       [SReturn [(EVar "err")]]
       []]
     [];
   SAssign [(EField (EVar "t") "ReplicaNodes"); (EVar "err")] [(EMethod (EVar "d") "Int32Array" [])];
   SIf [] (EBin Ne (EVar "err") ENil)
     [SReturn [(EVar "err")]]
     [];
   SAssign [(EField (EVar "t") "IsrNodes"); (EVar "err")] [(EMethod (EVar "d") "Int32Array" [])];
   SIf [] (EBin Ne (EVar "err") ENil)
     [SReturn [(EVar "err")]]
     [];
   SIf [] (EBin Ge (EVar "version") (EInt 5))
     [SAssign [(EField (EVar "t") "OfflineReplicas"); (EVar "err")] [(EMethod (EVar "d") "Int32Array" [])];
      SIf [] (EBin Ne (EVar "err") ENil)
       [SReturn [(EVar "err")]]
       []]
     [];
   SReturn [(EVar "err")]].
(** message/messages.gen.go:1955 *)
Definition go_LeaderAndIsrRequest_Size : func := mkFunc [("t", GNamed "LeaderAndIsrRequest"); ("version", GInt I16)] [GInt I32]
  [SVar "sz" (Some (GInt I32)) None;
   SOp (EVar "sz") Add (EGlobal "sizeof.Int32");
   SOp (EVar "sz") Add (EGlobal "sizeof.Int32");
   SIf [] (EBin Ge (EVar "version") (EInt 2))
     [SOp (EVar "sz") Add (EGlobal "sizeof.Int64")]
     [];
   SIf [] (EBin And (EBin Ge (EVar "version") (EInt 0)) (EBin Le (EVar "version") (EInt 1)))
     [SOp (EVar "sz") Add (EGlobal "sizeof.ArrayLength");
      SFor [SDefine ["i"] [(EBin Sub (ELen (EField (EVar "t") "UngroupedPartitionStates")) (EInt 1))]] (EBin Ge (EVar "i") (EInt 0)) [SOp (EVar "i") Sub (EInt 1)]
       [SOp (EVar "sz") Add (EMethod (EIndex (EField (EVar "t") "UngroupedPartitionStates") (EVar "i")) "Size" [(EVar "version")])]]
     [];
   SIf [] (EBin Ge (EVar "version") (EInt 2))
     [SOp (EVar "sz") Add (EGlobal "sizeof.ArrayLength");
      SFor [SDefine ["i"] [(EBin Sub (ELen (EField (EVar "t") "TopicStates")) (EInt 1))]] (EBin Ge (EVar "i") (EInt 0)) [SOp (EVar "i") Sub (EInt 1)]
       [SOp (EVar "sz") Add (EMethod (EIndex (EField (EVar "t") "TopicStates") (EVar "i")) "Size" [(EVar "version")])]]
     [];
   SOp (EVar "sz") Add (EGlobal "sizeof.ArrayLength");
   SFor [SDefine ["i"] [(EBin Sub (ELen (EField (EVar "t") "LiveLeaders")) (EInt 1))]] (EBin Ge (EVar "i") (EInt 0)) [SOp (EVar "i") Sub (EInt 1)]
     [SOp (EVar "sz") Add (EMethod (EIndex (EField (EVar "t") "LiveLeaders") (EVar "i")) "Size" [(EVar "version")])];
   SReturn [(EVar "sz")]].
(** message/messages.gen.go:1982 *)
Definition go_LeaderAndIsrRequest_Encode : func := mkFunc [("t", GNamed "LeaderAndIsrRequest"); ("e", GPtr (GNamed "Encoder")); ("version", GInt I16)] []
  [SExpr (EMethod (EVar "e") "PutInt32" [(EField (EVar "t") "ControllerId")]);
   SExpr (EMethod (EVar "e") "PutInt32" [(EField (EVar "t") "ControllerEpoch")]);
   SIf [] (EBin Ge (EVar "version") (EInt 2))
     [SExpr (EMethod (EVar "e") "PutInt64" [(EField (EVar "t") "BrokerEpoch")])]
     [];
   SIf [] (EBin And (EBin Ge (EVar "version") (EInt 0)) (EBin Le (EVar "version") (EInt 1)))
     [SDefine ["len3"] [(ELen (EField (EVar "t") "UngroupedPartitionStates"))];
      SExpr (EMethod (EVar "e") "PutArrayLength" [(EVar "len3")]);
      SFor [SDefine ["i"] [(EInt 0)]] (EBin Lt (EVar "i") (EVar "len3")) [SOp (EVar "i") Add (EInt 1)]
       [SExpr (EMethod (EIndex (EField (EVar "t") "UngroupedPartitionStates") (EVar "i")) "Encode" [(EVar "e"); (EVar "version")])]]
     [];
   SIf [] (EBin Ge (EVar "version") (EInt 2))
     [SDefine ["len4"] [(ELen (EField (EVar "t") "TopicStates"))];
      SExpr (EMethod (EVar "e") "PutArrayLength" [(EVar "len4")]);
      SFor [SDefine ["i"] [(EInt 0)]] (EBin Lt (EVar "i") (EVar "len4")) [SOp (EVar "i") Add (EInt 1)]
       [SExpr (EMethod (EIndex (EField (EVar "t") "TopicStates") (EVar "i")) "Encode" [(EVar "e"); (EVar "version")])]]
     [];
   SDefine ["len5"] [(ELen (EField (EVar "t") "LiveLeaders"))];
   SExpr (EMethod (EVar "e") "PutArrayLength" [(EVar "len5")]);
   SFor [SDefine ["i"] [(EInt 0)]] (EBin Lt (EVar "i") (EVar "len5")) [SOp (EVar "i") Add (EInt 1)]
     [SExpr (EMethod (EIndex (EField (EVar "t") "LiveLeaders") (EVar "i")) "Encode" [(EVar "e"); (EVar "version")])]].
(** message/messages.gen.go:2013 *)
Definition go_LeaderAndIsrRequest_Decode : func := mkFunc [("t", GPtr (GNamed "LeaderAndIsrRequest")); ("d", GPtr (GNamed "Decoder")); ("version", GInt I16)] [GNamed "error"]
  [SVar "err" (Some (GNamed "error")) None;
   SAssign [(EField (EVar "t") "ControllerId"); (EVar "err")] [(EMethod (EVar "d") "Int32" [])];
   SIf [] (EBin Ne (EVar "err") ENil)
     [SReturn [(EVar "err")]]
     [];
   SAssign [(EField (EVar "t") "ControllerEpoch"); (EVar "err")] [(EMethod (EVar "d") "Int32" [])];
   SIf [] (EBin Ne (EVar "err") ENil)
     [SReturn [(EVar "err")]]
     [];
   SIf [] (EBin Ge (EVar "version") (EInt 2))
     [SAssign [(EField (EVar "t") "BrokerEpoch"); (EVar "err")] [(EMethod (EVar "d") "Int64" [])];
      SIf [] (EBin Ne (EVar "err") ENil)
       [SReturn [(EVar "err")]]
       []]
     [];
   SIf [] (EBin And (EBin Ge (EVar "version") (EInt 0)) (EBin Le (EVar "version") (EInt 1)))
     [SIf [SDefine ["n"; "err"] [(EMethod (EVar "d") "ArrayLength" [])]] (EBin Ne (EVar "err") ENil)
       [SReturn [(EVar "err")]]
       [SIf [] (EBin Ge (EVar "n") (EInt 0))
         [SAssign [(EField (EVar "t") "UngroupedPartitionStates")] [(EMake (GSlice (GNamed "LeaderAndIsrPartitionState4")) (EVar "n"))];
          SFor [SDefine ["i"] [(EInt 0)]] (EBin Lt (EVar "i") (EVar "n")) [SOp (EVar "i") Add (EInt 1)]
           [SVar "item" (Some (GNamed "LeaderAndIsrPartitionState4")) None;
            SIf [SDefine ["err"] [(EMethod (EAddr (EVar "item")) "Decode" [(EVar "d"); (EVar "version")])]] (EBin Ne (EVar "err") ENil)
             [SReturn [(EVar "err")]]
             [];
            SAssign [(EIndex (EField (EVar "t") "UngroupedPartitionStates") (EVar "i"))] [(EVar "item")]]]
         []]]
     [];
   SIf [] (EBin Ge (EVar "version") (EInt 2))
     [SIf [SDefine ["n"; "err"] [(EMethod (EVar "d") "ArrayLength" [])]] (EBin Ne (EVar "err") ENil)
       [SReturn [(EVar "err")]]
       [SIf [] (EBin Ge (EVar "n") (EInt 0))
         [SAssign [(EField (EVar "t") "TopicStates")] [(EMake (GSlice (GNamed "LeaderAndIsrTopicState4")) (EVar "n"))];
          SFor [SDefine ["i"] [(EInt 0)]] (EBin Lt (EVar "i") (EVar "n")) [SOp (EVar "i") Add (EInt 1)]
           [SVar "item" (Some (GNamed "LeaderAndIsrTopicState4")) None;
            SIf [SDefine ["err"] [(EMethod (EAddr (EVar "item")) "Decode" [(EVar "d"); (EVar "version")])]] (EBin Ne (EVar "err") ENil)
             [SReturn [(EVar "err")]]
             [];
            SAssign [(EIndex (EField (EVar "t") "TopicStates") (EVar "i"))] [(EVar "item")]]]
         []]]
     [];
   SIf [SDefine ["n"; "err"] [(EMethod (EVar "d") "ArrayLength" [])]] (EBin Ne (EVar "err") ENil)
     [SReturn [(EVar "err")]]
     [SIf [] (EBin Ge (EVar "n") (EInt 0))
       [SAssign [(EField (EVar "t") "LiveLeaders")] [(EMake (GSlice (GNamed "LeaderAndIsrLiveLeader4")) (EVar "n"))];
        SFor [SDefine ["i"] [(EInt 0)]] (EBin Lt (EVar "i") (EVar "n")) [SOp (EVar "i") Add (EInt 1)]
         [SVar "item" (Some (GNamed "LeaderAndIsrLiveLeader4")) None;
          SIf [SDefine ["err"] [(EMethod (EAddr (EVar "item")) "Decode" [(EVar "d"); (EVar "version")])]] (EBin Ne (EVar "err") ENil)
           [SReturn [(EVar "err")]]
           [];
          SAssign [(EIndex (EField (EVar "t") "LiveLeaders") (EVar "i"))] [(EVar "item")]]]
       []];
   SReturn [(EVar "err")]].
(** message/messages.gen.go:2081 *)
Definition go_LeaderAndIsrTopicState4_Size : func := mkFunc [("t", GNamed "LeaderAndIsrTopicState4"); ("version", GInt I16)] [GInt I32]
  [SVar "sz" (Some (GInt I32)) None;
   SIf [] (EBin Ge (EVar "version") (EInt 2))
     [SOp (EVar "sz") Add (ECall "sizeof.String" [(EField (EVar "t") "TopicName")])]
     [];
   SIf [] (EBin Ge (EVar "version") (EInt 2))
     [SOp (EVar "sz") Add (EGlobal "sizeof.ArrayLength");
      SFor [SDefine ["i"] [(EBin Sub (ELen (EField (EVar "t") "PartitionStates")) (EInt 1))]] (EBin Ge (EVar "i") (EInt 0)) [SOp (EVar "i") Sub (EInt 1)]
       [SOp (EVar "sz") Add (EMethod (EIndex (EField (EVar "t") "PartitionStates") (EVar "i")) "Size" [(EVar "version")])]]
     [];
   SReturn [(EVar "sz")]].
(** message/messages.gen.go:2096 *)
Definition go_LeaderAndIsrTopicState4_Encode : func := mkFunc [("t", GNamed "LeaderAndIsrTopicState4"); ("e", GPtr (GNamed "Encoder")); ("version", GInt I16)] []
  [SIf [] (EBin Ge (EVar "version") (EInt 2))
     [SExpr (EMethod (EVar "e") "PutString" [(EField (EVar "t") "TopicName")])]
     [];
   SIf [] (EBin Ge (EVar "version") (EInt 2))
     [SDefine ["len1"] [(ELen (EField (EVar "t") "PartitionStates"))];
      SExpr (EMethod (EVar "e") "PutArrayLength" [(EVar "len1")]);
      SFor [SDefine ["i"] [(EInt 0)]] (EBin Lt (EVar "i") (EVar "len1")) [SOp (EVar "i") Add (EInt 1)]
       [SExpr (EMethod (EIndex (EField (EVar "t") "PartitionStates") (EVar "i")) "Encode" [(EVar "e"); (EVar "version")])]]
     []].
(** message/messages.gen.go:2111 *)
Definition go_LeaderAndIsrTopicState4_Decode : func := mkFunc [("t", GPtr (GNamed "LeaderAndIsrTopicState4")); ("d", GPtr (GNamed "Decoder")); ("version", GInt I16)] [GNamed "error"]
  [SVar "err" (Some (GNamed "error")) None;
   SIf [] (EBin Ge (EVar "version") (EInt 2))
     [SAssign [(EField (EVar "t") "TopicName"); (EVar "err")] [(EMethod (EVar "d") "String" [])];
      SIf [] (EBin Ne (EVar "err") ENil)
       [SReturn [(EVar "err")]]
       []]
     [];
   SIf [] (EBin Ge (EVar "version") (EInt 2))
     [SIf [SDefine ["n"; "err"] [(EMethod (EVar "d") "ArrayLength" [])]] (EBin Ne (EVar "err") ENil)
       [SReturn [(EVar "err")]]
       [SIf [] (EBin Ge (EVar "n") (EInt 0))
         [SAssign [(EField (EVar "t") "PartitionStates")] [(EMake (GSlice (GNamed "LeaderAndIsrPartitionState4")) (EVar "n"))];
          SFor [SDefine ["i"] [(EInt 0)]] (EBin Lt (EVar "i") (EVar "n")) [SOp (EVar "i") Add (EInt 1)]
           [SVar "item" (Some (GNamed "LeaderAndIsrPartitionState4")) None;
            SIf [SDefine ["err"] [(EMethod (EAddr (EVar "item")) "Decode" [(EVar "d"); (EVar "version")])]] (EBin Ne (EVar "err") ENil)
             [SReturn [(EVar "err")]]
             [];
            SAssign [(EIndex (EField (EVar "t") "PartitionStates") (EVar "i"))] [(EVar "item")]]]
         []]]
     [];
   SReturn [(EVar "err")]].
(** message/messages.gen.go:2144 *)
Definition go_LeaderAndIsrLiveLeader4_Size : func := mkFunc [("t", GNamed "LeaderAndIsrLiveLeader4"); ("version", GInt I16)] [GInt I32]
  [SVar "sz" (Some (GInt I32)) None;
   SOp (EVar "sz") Add (EGlobal "sizeof.Int32");
   SOp (EVar "sz") Add (ECall "sizeof.String" [(EField (EVar "t") "HostName")]);
   SOp (EVar "sz") Add (EGlobal "sizeof.Int32");
   SReturn [(EVar "sz")]].
(** message/messages.gen.go:2153 *)
Definition go_LeaderAndIsrLiveLeader4_Encode : func := mkFunc [("t", GNamed "LeaderAndIsrLiveLeader4"); ("e", GPtr (GNamed "Encoder")); ("version", GInt I16)] []
  [SExpr (EMethod (EVar "e") "PutInt32" [(EField (EVar "t") "BrokerId")]);
   SExpr (EMethod (EVar "e") "PutString" [(EField (EVar "t") "HostName")]);
   SExpr (EMethod (EVar "e") "PutInt32" [(EField (EVar "t") "Port")])].
(** message/messages.gen.go:2160 *)
Definition go_LeaderAndIsrLiveLeader4_Decode : func := mkFunc [("t", GPtr (GNamed "LeaderAndIsrLiveLeader4")); ("d", GPtr (GNamed "Decoder")); ("version", GInt I16)] [GNamed "error"]
  [SVar "err" (Some (GNamed "error")) None;
   SAssign [(EField (EVar "t") "BrokerId"); (EVar "err")] [(EMethod (EVar "d") "Int32" [])];
   SIf [] (EBin Ne (EVar "err") ENil)
     [SReturn [(EVar "err")]]
     [];
   SAssign [(EField (EVar "t") "HostName"); (EVar "err")] [(EMethod (EVar "d") "String" [])];
   SIf [] (EBin Ne (EVar "err") ENil)
     [SReturn [(EVar "err")]]
     [];
   SAssign [(EField (EVar "t") "Port"); (EVar "err")] [(EMethod (EVar "d") "Int32" [])];
   SIf [] (EBin Ne (EVar "err") ENil)
     [SReturn [(EVar "err")]]
     [];
   SReturn [(EVar "err")]].
(** message/messages.gen.go:2192 *)
Definition go_LeaderAndIsrPartitionState4_Size : func := mkFunc [("t", GNamed "LeaderAndIsrPartitionState4"); ("version", GInt I16)] [GInt I32]
  [SVar "sz" (Some (GInt I32)) None;
   SIf [] (EBin And (EBin Ge (EVar "version") (EInt 0)) (EBin Le (EVar "version") (EInt 1)))
     [SOp (EVar "sz") Add (ECall "sizeof.String" [(EField (EVar "t") "TopicName")])]
     [];
   SOp (EVar "sz") Add (EGlobal "sizeof.Int32");
   SOp (EVar "sz") Add (EGlobal "sizeof.Int32");
   SOp (EVar "sz") Add (EGlobal "sizeof.Int32");
   SOp (EVar "sz") Add (EGlobal "sizeof.Int32");
   SOp (EVar "sz") Add (ECall "sizeof.Int32Array" [(EField (EVar "t") "Isr")]);
   SOp (EVar "sz") Add (EGlobal "sizeof.Int32");
   SOp (EVar "sz") Add (ECall "sizeof.Int32Array" [(EField (EVar "t") "Replicas")]);
   SIf [] (EBin Ge (EVar "version") (EInt 3))
     [SOp (EVar "sz") Add (ECall "sizeof.Int32Array" [(EField (EVar "t") "AddingReplicas")])]
     [];
   SIf [] (EBin Ge (EVar "version") (EInt 3))
     [SOp (EVar "sz") Add (ECall "sizeof.Int32Array" [(EField (EVar "t") "RemovingReplicas")])]
     [];
   SIf [] (EBin Ge (EVar "version") (EInt 1))
     [SOp (EVar "sz") Add (EGlobal "sizeof.Bool")]
     [];
   SReturn [(EVar "sz")]].
(** message/messages.gen.go:2217 *)
Definition go_LeaderAndIsrPartitionState4_Encode : func := mkFunc [("t", GNamed "LeaderAndIsrPartitionState4"); ("e", GPtr (GNamed "Encoder")); ("version", GInt I16)] []
  [SIf [] (EBin And (EBin Ge (EVar "version") (EInt 0)) (EBin Le (EVar "version") (EInt 1)))
     [SExpr (EMethod (EVar "e") "PutString" [(EField (EVar "t") "TopicName")])]
     [];
   SExpr (EMethod (EVar "e") "PutInt32" [(EField (EVar "t") "PartitionIndex")]);
   SExpr (EMethod (EVar "e") "PutInt32" [(EField (EVar "t") "ControllerEpoch")]);
   SExpr (EMethod (EVar "e") "PutInt32" [(EField (EVar "t") "Leader")]);
   SExpr (EMethod (EVar "e") "PutInt32" [(EField (EVar "t") "LeaderEpoch")]);
   SExpr (EMethod (EVar "e") "PutInt32Array" [(EField (EVar "t") "Isr")]);
   SExpr (EMethod (EVar "e") "PutInt32" [(EField (EVar "t") "ZkVersion")]);
   SExpr (EMethod (EVar "e") "PutInt32Array" [(EField (EVar "t") "Replicas")]);
   SIf [] (EBin Ge (EVar "version") (EInt 3))
     [SExpr (EMethod (EVar "e") "PutInt32Array" [(EField (EVar "t") "AddingReplicas")])]
     [];
   SIf [] (EBin Ge (EVar "version") (EInt 3))
     [SExpr (EMethod (EVar "e") "PutInt32Array" [(EField (EVar "t") "RemovingReplicas")])]
     [];
   SIf [] (EBin Ge (EVar "version") (EInt 1))
     [SExpr (EMethod (EVar "e") "PutBool" [(EField (EVar "t") "IsNew")])]
     []].
(** message/messages.gen.go:2240 *)
Definition go_LeaderAndIsrPartitionState4_Decode : func := mkFunc [("t", GPtr (GNamed "LeaderAndIsrPartitionState4")); ("d", GPtr (GNamed "Decoder")); ("version", GInt I16)] [GNamed "error"]
  [SVar "err" (Some (GNamed "error")) None;
   SIf [] (EBin And (EBin Ge (EVar "version") (EInt 0)) (EBin Le (EVar "version") (EInt 1)))
     [SAssign [(EField (EVar "t") "TopicName"); (EVar "err")] [(EMethod (EVar "d") "String" [])];
      SIf [] (EBin Ne (EVar "err") ENil)
       [SReturn [(EVar "err")]]
       []]
     [];
   SAssign [(EField (EVar "t") "PartitionIndex"); (EVar "err")] [(EMethod (EVar "d") "Int32" [])];
   SIf [] (EBin Ne (EVar "err") ENil)
     [SReturn [(EVar "err")]]
     [];
   SAssign [(EField (EVar "t") "ControllerEpoch"); (EVar "err")] [(EMethod (EVar "d") "Int32" [])];
   SIf [] (EBin Ne (EVar "err") ENil)
     [SReturn [(EVar "err")]]
     [];
   SAssign [(EField (EVar "t") "Leader"); (EVar "err")] [(EMethod (EVar "d") "Int32" [])];
   SIf [] (EBin Ne (EVar "err") ENil)
     [SReturn [(EVar "err")]]
     [];
   SAssign [(EField (EVar "t") "LeaderEpoch"); (EVar "err")] [(EMethod (EVar "d") "Int32" [])];
   SIf [] (EBin Ne (EVar "err") ENil)
     [SReturn [(EVar "err")]]
     [];
   SAssign [(EField (EVar "t") "Isr"); (EVar "err")] [(EMethod (EVar "d") "Int32Array" [])];
   SIf [] (EBin Ne (EVar "err") ENil)
     [SReturn [(EVar "err")]]
     [];
   SAssign [(EField (EVar "t") "ZkVersion"); (EVar "err")] [(EMethod (EVar "d") "Int32" [])];
   SIf [] (EBin Ne (EVar "err") ENil)
     [SReturn [(EVar "err")]]
     [];
   SAssign [(EField (EVar "t") "Replicas"); (EVar "err")] [(EMethod (EVar "d") "Int32Array" [])];
   SIf [] (EBin Ne (EVar "err") ENil)
     [SReturn [(EVar "err")]]
     [];
   SIf [] (EBin Ge (EVar "version") (EInt 3))
     [SAssign [(EField (EVar "t") "AddingReplicas"); (EVar "err")] [(EMethod (EVar "d") "Int32Array" [])];
      SIf [] (EBin Ne (EVar "err") ENil)
       [SReturn [(EVar "err")]]
       []]
     [];
   SIf [] (EBin Ge (EVar "version") (EInt 3))
     [SAssign [(EField (EVar "t") "RemovingReplicas"); (EVar "err")] [(EMethod (EVar "d") "Int32Array" [])];
      SIf [] (EBin Ne (EVar "err") ENil)
       [SReturn [(EVar "err")]]
       []]
     [];
   SIf [] (EBin Ge (EVar "version") (EInt 1))
     [SAssign [(EField (EVar "t") "IsNew"); (EVar "err")] [(EMethod (EVar "d") "Bool" [])];
      SIf [] (EBin Ne (EVar "err") ENil)
       [SReturn [(EVar "err")]]
       []]
     [];
   SReturn [(EVar "err")]].
(** message/messages.gen.go:2304 *)
Definition go_LeaderAndIsrResponse_Size : func := mkFunc [("t", GNamed "LeaderAndIsrResponse"); ("version", GInt I16)] [GInt I32]
  [SVar "sz" (Some (GInt I32)) None;
   SOp (EVar "sz") Add (EGlobal "sizeof.Int16");
   SOp (EVar "sz") Add (EGlobal "sizeof.ArrayLength");
   SFor [SDefine ["i"] [(EBin Sub (ELen (EField (EVar "t") "PartitionErrors")) (EInt 1))]] (EBin Ge (EVar "i") (EInt 0)) [SOp (EVar "i") Sub (EInt 1)]
     [SOp (EVar "sz") Add (EMethod (EIndex (EField (EVar "t") "PartitionErrors") (EVar "i")) "Size" [(EVar "version")])];
   SReturn [(EVar "sz")]].
(** message/messages.gen.go:2315 *)
Definition go_LeaderAndIsrResponse_Encode : func := mkFunc [("t", GNamed "LeaderAndIsrResponse"); ("e", GPtr (GNamed "Encoder")); ("version", GInt I16)] []
  [SExpr (EMethod (EVar "e") "PutInt16" [(EField (EVar "t") "ErrorCode")]);
   SDefine ["len1"] [(ELen (EField (EVar "t") "PartitionErrors"))];
   SExpr (EMethod (EVar "e") "PutArrayLength" [(EVar "len1")]);
   SFor [SDefine ["i"] [(EInt 0)]] (EBin Lt (EVar "i") (EVar "len1")) [SOp (EVar "i") Add (EInt 1)]
     [SExpr (EMethod (EIndex (EField (EVar "t") "PartitionErrors") (EVar "i")) "Encode" [(EVar "e"); (EVar "version")])]].
(** message/messages.gen.go:2326 *)
Definition go_LeaderAndIsrResponse_Decode : func := mkFunc [("t", GPtr (GNamed "LeaderAndIsrResponse")); ("d", GPtr (GNamed "Decoder")); ("version", GInt I16)] [GNamed "error"]
  [SVar "err" (Some (GNamed "error")) None;
   SAssign [(EField (EVar "t") "ErrorCode"); (EVar "err")] [(EMethod (EVar "d") "Int16" [])];
   SIf [] (EBin Ne (EVar "err") ENil)
     [SReturn [(EVar "err")]]
     [];
   SIf [SDefine ["n"; "err"] [(EMethod (EVar "d") "ArrayLength" [])]] (EBin Ne (EVar "err") ENil)
     [SReturn [(EVar "err")]]
     [SIf [] (EBin Ge (EVar "n") (EInt 0))
       [SAssign [(EField (EVar "t") "PartitionErrors")] [(EMake (GSlice (GNamed "LeaderAndIsrPartitionError4")) (EVar "n"))];
        SFor [SDefine ["i"] [(EInt 0)]] (EBin Lt (EVar "i") (EVar "n")) [SOp (EVar "i") Add (EInt 1)]
         [SVar "item" (Some (GNamed "LeaderAndIsrPartitionError4")) None;
          SIf [SDefine ["err"] [(EMethod (EAddr (EVar "item")) "Decode" [(EVar "d"); (EVar "version")])]] (EBin Ne (EVar "err") ENil)
           [SReturn [(EVar "err")]]
           [];
          SAssign [(EIndex (EField (EVar "t") "PartitionErrors") (EVar "i"))] [(EVar "item")]]]
       []];
   SReturn [(EVar "err")]].
(** message/messages.gen.go:2355 *)
Definition go_LeaderAndIsrPartitionError4_Size : func := mkFunc [("t", GNamed "LeaderAndIsrPartitionError4"); ("version", GInt I16)] [GInt I32]
  [SVar "sz" (Some (GInt I32)) None;
   SOp (EVar "sz") Add (ECall "sizeof.String" [(EField (EVar "t") "TopicName")]);
   SOp (EVar "sz") Add (EGlobal "sizeof.Int32");
   SOp (EVar "sz") Add (EGlobal "sizeof.Int16");
   SReturn [(EVar "sz")]].
(** message/messages.gen.go:2364 *)
Definition go_LeaderAndIsrPartitionError4_Encode : func := mkFunc [("t", GNamed "LeaderAndIsrPartitionError4"); ("e", GPtr (GNamed "Encoder")); ("version", GInt I16)] []
  [SExpr (EMethod (EVar "e") "PutString" [(EField (EVar "t") "TopicName")]);
   SExpr (EMethod (EVar "e") "PutInt32" [(EField (EVar "t") "PartitionIndex")]);
   SExpr (EMethod (EVar "e") "PutInt16" [(EField (EVar "t") "ErrorCode")])].
(** message/messages.gen.go:2371 *)
Definition go_LeaderAndIsrPartitionError4_Decode : func := mkFunc [("t", GPtr (GNamed "LeaderAndIsrPartitionError4")); ("d", GPtr (GNamed "Decoder")); ("version", GInt I16)] [GNamed "error"]
  [SVar "err" (Some (GNamed "error")) None;
   SAssign [(EField (EVar "t") "TopicName"); (EVar "err")] [(EMethod (EVar "d") "String" [])];
   SIf [] (EBin Ne (EVar "err") ENil)
     [SReturn [(EVar "err")]]
     [];
   SAssign [(EField (EVar "t") "PartitionIndex"); (EVar "err")] [(EMethod (EVar "d") "Int32" [])];
   SIf [] (EBin Ne (EVar "err") ENil)
     [SReturn [(EVar "err")]]
     [];
   SAssign [(EField (EVar "t") "ErrorCode"); (EVar "err")] [(EMethod (EVar "d") "Int16" [])];
   SIf [] (EBin Ne (EVar "err") ENil)
     [SReturn [(EVar "err")]]
     [];
   SReturn [(EVar "err")]].
(** message/messages.gen.go:2399 *)
Definition go_StopReplicaRequest_Size : func := mkFunc [("t", GNamed "StopReplicaRequest"); ("version", GInt I16)] [GInt I32]
  [SVar "sz" (Some (GInt I32)) None;
   SOp (EVar "sz") Add (EGlobal "sizeof.Int32");
   SOp (EVar "sz") Add (EGlobal "sizeof.Int32");
   SIf [] (EBin Ge (EVar "version") (EInt 1))
     [SOp (EVar "sz") Add (EGlobal "sizeof.Int64")]
     [];
   SOp (EVar "sz") Add (EGlobal "sizeof.Bool");
   SIf [] (EBin And (EBin Ge (EVar "version") (EInt 0)) (EBin Le (EVar "version") (EInt 0)))
     [SOp (EVar "sz") Add (EGlobal "sizeof.ArrayLength");
      SFor [SDefine ["i"] [(EBin Sub (ELen (EField (EVar "t") "UngroupedPartitions")) (EInt 1))]] (EBin Ge (EVar "i") (EInt 0)) [SOp (EVar "i") Sub (EInt 1)]
       [SOp (EVar "sz") Add (EMethod (EIndex (EField (EVar "t") "UngroupedPartitions") (EVar "i")) "Size" [(EVar "version")])]]
     [];
   SIf [] (EBin Ge (EVar "version") (EInt 1))
     [SOp (EVar "sz") Add (EGlobal "sizeof.ArrayLength");
      SFor [SDefine ["i"] [(EBin Sub (ELen (EField (EVar "t") "Topics")) (EInt 1))]] (EBin Ge (EVar "i") (EInt 0)) [SOp (EVar "i") Sub (EInt 1)]
       [SOp (EVar "sz") Add (EMethod (EIndex (EField (EVar "t") "Topics") (EVar "i")) "Size" [(EVar "version")])]]
     [];
   SReturn [(EVar "sz")]].
(** message/messages.gen.go:2423 *)
Definition go_StopReplicaRequest_Encode : func := mkFunc [("t", GNamed "StopReplicaRequest"); ("e", GPtr (GNamed "Encoder")); ("version", GInt I16)] []
  [SExpr (EMethod (EVar "e") "PutInt32" [(EField (EVar "t") "ControllerId")]);
   SExpr (EMethod (EVar "e") "PutInt32" [(EField (EVar "t") "ControllerEpoch")]);
   SIf [] (EBin Ge (EVar "version") (EInt 1))
     [SExpr (EMethod (EVar "e") "PutInt64" [(EField (EVar "t") "BrokerEpoch")])]
     [];
   SExpr (EMethod (EVar "e") "PutBool" [(EField (EVar "t") "DeletePartitions")]);
   SIf [] (EBin And (EBin Ge (EVar "version") (EInt 0)) (EBin Le (EVar "version") (EInt 0)))
     [SDefine ["len4"] [(ELen (EField (EVar "t") "UngroupedPartitions"))];
      SExpr (EMethod (EVar "e") "PutArrayLength" [(EVar "len4")]);
      SFor [SDefine ["i"] [(EInt 0)]] (EBin Lt (EVar "i") (EVar "len4")) [SOp (EVar "i") Add (EInt 1)]
       [SExpr (EMethod (EIndex (EField (EVar "t") "UngroupedPartitions") (EVar "i")) "Encode" [(EVar "e"); (EVar "version")])]]
     [];
   SIf [] (EBin Ge (EVar "version") (EInt 1))
     [SDefine ["len5"] [(ELen (EField (EVar "t") "Topics"))];
      SExpr (EMethod (EVar "e") "PutArrayLength" [(EVar "len5")]);
      SFor [SDefine ["i"] [(EInt 0)]] (EBin Lt (EVar "i") (EVar "len5")) [SOp (EVar "i") Add (EInt 1)]
       [SExpr (EMethod (EIndex (EField (EVar "t") "Topics") (EVar "i")) "Encode" [(EVar "e"); (EVar "version")])]]
     []].
(** message/messages.gen.go:2449 *)
Definition go_StopReplicaRequest_Decode : func := mkFunc [("t", GPtr (GNamed "StopReplicaRequest")); ("d", GPtr (GNamed "Decoder")); ("version", GInt I16)] [GNamed "error"]
  [SVar "err" (Some (GNamed "error")) None;
   SAssign [(EField (EVar "t") "ControllerId"); (EVar "err")] [(EMethod (EVar "d") "Int32" [])];
   SIf [] (EBin Ne (EVar "err") ENil)
     [SReturn [(EVar "err")]]
     [];
   SAssign [(EField (EVar "t") "ControllerEpoch"); (EVar "err")] [(EMethod (EVar "d") "Int32" [])];
   SIf [] (EBin Ne (EVar "err") ENil)
     [SReturn [(EVar "err")]]
     [];
   SIf [] (EBin Ge (EVar "version") (EInt 1))
     [SAssign [(EField (EVar "t") "BrokerEpoch"); (EVar "err")] [(EMethod (EVar "d") "Int64" [])];
      SIf [] (EBin Ne (EVar "err") ENil)
       [SReturn [(EVar "err")]]
       []]
     [];
   SAssign [(EField (EVar "t") "DeletePartitions"); (EVar "err")] [(EMethod (EVar "d") "Bool" [])];
   SIf [] (EBin Ne (EVar "err") ENil)
     [SReturn [(EVar "err")]]
     [];
   SIf [] (EBin And (EBin Ge (EVar "version") (EInt 0)) (EBin Le (EVar "version") (EInt 0)))
     [SIf [SDefine ["n"; "err"] [(EMethod (EVar "d") "ArrayLength" [])]] (EBin Ne (EVar "err") ENil)
       [SReturn [(EVar "err")]]
       [SIf [] (EBin Ge (EVar "n") (EInt 0))
         [SAssign [(EField (EVar "t") "UngroupedPartitions")] [(EMake (GSlice (GNamed "StopReplicaPartitionV05")) (EVar "n"))];
          SFor [SDefine ["i"] [(EInt 0)]] (EBin Lt (EVar "i") (EVar "n")) [SOp (EVar "i") Add (EInt 1)]
           [SVar "item" (Some (GNamed "StopReplicaPartitionV05")) None;
            SIf [SDefine ["err"] [(EMethod (EAddr (EVar "item")) "Decode" [(EVar "d"); (EVar "version")])]] (EBin Ne (EVar "err") ENil)
             [SReturn [(EVar "err")]]
             [];
            SAssign [(EIndex (EField (EVar "t") "UngroupedPartitions") (EVar "i"))] [(EVar "item")]]]
         []]]
     [];
   SIf [] (EBin Ge (EVar "version") (EInt 1))
     [SIf [SDefine ["n"; "err"] [(EMethod (EVar "d") "ArrayLength" [])]] (EBin Ne (EVar "err") ENil)
       [SReturn [(EVar "err")]]
       [SIf [] (EBin Ge (EVar "n") (EInt 0))
         [SAssign [(EField (EVar "t") "Topics")] [(EMake (GSlice (GNamed "StopReplicaTopic5")) (EVar "n"))];
          SFor [SDefine ["i"] [(EInt 0)]] (EBin Lt (EVar "i") (EVar "n")) [SOp (EVar "i") Add (EInt 1)]
           [SVar "item" (Some (GNamed "StopReplicaTopic5")) None;
            SIf [SDefine ["err"] [(EMethod (EAddr (EVar "item")) "Decode" [(EVar "d"); (EVar "version")])]] (EBin Ne (EVar "err") ENil)
             [SReturn [(EVar "err")]]
             [];
            SAssign [(EIndex (EField (EVar "t") "Topics") (EVar "i"))] [(EVar "item")]]]
         []]]
     [];
   SReturn [(EVar "err")]].
(** message/messages.gen.go:2508 *)
Definition go_StopReplicaPartitionV05_Size : func := mkFunc [("t", GNamed "StopReplicaPartitionV05"); ("version", GInt I16)] [GInt I32]
  [SVar "sz" (Some (GInt I32)) None;
   SIf [] (EBin And (EBin Ge (EVar "version") (EInt 0)) (EBin Le (EVar "version") (EInt 0)))
     [SOp (EVar "sz") Add (ECall "sizeof.String" [(EField (EVar "t") "TopicName")])]
     [];
   SIf [] (EBin And (EBin Ge (EVar "version") (EInt 0)) (EBin Le (EVar "version") (EInt 0)))
     [SOp (EVar "sz") Add (EGlobal "sizeof.Int32")]
     [];
   SReturn [(EVar "sz")]].
(** message/messages.gen.go:2520 *)
Definition go_StopReplicaPartitionV05_Encode : func := mkFunc [("t", GNamed "StopReplicaPartitionV05"); ("e", GPtr (GNamed "Encoder")); ("version", GInt I16)] []
  [SIf [] (EBin And (EBin Ge (EVar "version") (EInt 0)) (EBin Le (EVar "version") (EInt 0)))
     [SExpr (EMethod (EVar "e") "PutString" [(EField (EVar "t") "TopicName")])]
     [];
   SIf [] (EBin And (EBin Ge (EVar "version") (EInt 0)) (EBin Le (EVar "version") (EInt 0)))
     [SExpr (EMethod (EVar "e") "PutInt32" [(EField (EVar "t") "PartitionIndex")])]
     []].
(** message/messages.gen.go:2530 *)
Definition go_StopReplicaPartitionV05_Decode : func := mkFunc [("t", GPtr (GNamed "StopReplicaPartitionV05")); ("d", GPtr (GNamed "Decoder")); ("version", GInt I16)] [GNamed "error"]
  [SVar "err" (Some (GNamed "error")) None;
   SIf [] (EBin And (EBin Ge (EVar "version") (EInt 0)) (EBin Le (EVar "version") (EInt 0)))
     [SAssign [(EField (EVar "t") "TopicName"); (EVar "err")] [(EMethod (EVar "d") "String" [])];
      SIf [] (EBin Ne (EVar "err") ENil)
       [SReturn [(EVar "err")]]
       []]
     [];
   SIf [] (EBin And (EBin Ge (EVar "version") (EInt 0)) (EBin Le (EVar "version") (EInt 0)))
     [SAssign [(EField (EVar "t") "PartitionIndex"); (EVar "err")] [(EMethod (EVar "d") "Int32" [])];
      SIf [] (EBin Ne (EVar "err") ENil)
       [SReturn [(EVar "err")]]
       []]
     [];
   SReturn [(EVar "err")]].
(** message/messages.gen.go:2553 *)
Definition go_StopReplicaTopic5_Size : func := mkFunc [("t", GNamed "StopReplicaTopic5"); ("version", GInt I16)] [GInt I32]
  [SVar "sz" (Some (GInt I32)) None;
   SIf [] (EBin Ge (EVar "version") (EInt 1))
     [SOp (EVar "sz") Add (ECall "sizeof.String" [(EField (EVar "t") "Name")])]
     [];
   SIf [] (EBin Ge (EVar "version") (EInt 1))
     [SOp (EVar "sz") Add (ECall "sizeof.Int32Array" [(EField (EVar "t") "PartitionIndexes")])]
     [];
   SReturn [(EVar "sz")]].
(** message/messages.gen.go:2565 *)
Definition go_StopReplicaTopic5_Encode : func := mkFunc [("t", GNamed "StopReplicaTopic5"); ("e", GPtr (GNamed "Encoder")); ("version", GInt I16)] []
  [SIf [] (EBin Ge (EVar "version") (EInt 1))
     [SExpr (EMethod (EVar "e") "PutString" [(EField (EVar "t") "Name")])]
     [];
   SIf [] (EBin Ge (EVar "version") (EInt 1))
     [SExpr (EMethod (EVar "e") "PutInt32Array" [(EField (EVar "t") "PartitionIndexes")])]
     []].
(** message/messages.gen.go:2575 *)
Definition go_StopReplicaTopic5_Decode : func := mkFunc [("t", GPtr (GNamed "StopReplicaTopic5")); ("d", GPtr (GNamed "Decoder")); ("version", GInt I16)] [GNamed "error"]
  [SVar "err" (Some (GNamed "error")) None;
   SIf [] (EBin Ge (EVar "version") (EInt 1))
     [SAssign [(EField (EVar "t") "Name"); (EVar "err")] [(EMethod (EVar "d") "String" [])];
      SIf [] (EBin Ne (EVar "err") ENil)
       [SReturn [(EVar "err")]]
       []]
     [];
   SIf [] (EBin Ge (EVar "version") (EInt 1))
     [SAssign [(EField (EVar "t") "PartitionIndexes"); (EVar "err")] [(EMethod (EVar "d") "Int32Array" [])];
      SIf [] (EBin Ne (EVar "err") ENil)
       [SReturn [(EVar "err")]]
       []]
     [];
   SReturn [(EVar "err")]].
(** message/messages.gen.go:2599 *)
Definition go_StopReplicaResponse_Size : func := mkFunc [("t", GNamed "StopReplicaResponse"); ("version", GInt I16)] [GInt I32]
  [SVar "sz" (Some (GInt I32)) None;
   SOp (EVar "sz") Add (EGlobal "sizeof.Int16");
   SOp (EVar "sz") Add (EGlobal "sizeof.ArrayLength");
   SFor [SDefine ["i"] [(EBin Sub (ELen (EField (EVar "t") "PartitionErrors")) (EInt 1))]] (EBin Ge (EVar "i") (EInt 0)) [SOp (EVar "i") Sub (EInt 1)]
     [SOp (EVar "sz") Add (EMethod (EIndex (EField (EVar "t") "PartitionErrors") (EVar "i")) "Size" [(EVar "version")])];
   SReturn [(EVar "sz")]].
(** message/messages.gen.go:2610 *)
Definition go_StopReplicaResponse_Encode : func := mkFunc [("t", GNamed "StopReplicaResponse"); ("e", GPtr (GNamed "Encoder")); ("version", GInt I16)] []
  [SExpr (EMethod (EVar "e") "PutInt16" [(EField (EVar "t") "ErrorCode")]);
   SDefine ["len1"] [(ELen (EField (EVar "t") "PartitionErrors"))];
   SExpr (EMethod (EVar "e") "PutArrayLength" [(EVar "len1")]);
   SFor [SDefine ["i"] [(EInt 0)]] (EBin Lt (EVar "i") (EVar "len1")) [SOp (EVar "i") Add (EInt 1)]
     [SExpr (EMethod (EIndex (EField (EVar "t") "PartitionErrors") (EVar "i")) "Encode" [(EVar "e"); (EVar "version")])]].
(** message/messages.gen.go:2621 *)
Definition go_StopReplicaResponse_Decode : func := mkFunc [("t", GPtr (GNamed "StopReplicaResponse")); ("d", GPtr (GNamed "Decoder")); ("version", GInt I16)] [GNamed "error"]
  [SVar "err" (Some (GNamed "error")) None;
   SAssign [(EField (EVar "t") "ErrorCode"); (EVar "err")] [(EMethod (EVar "d") "Int16" [])];
   SIf [] (EBin Ne (EVar "err") ENil)
     [SReturn [(EVar "err")]]
     [];
   SIf [SDefine ["n"; "err"] [(EMethod (EVar "d") "ArrayLength" [])]] (EBin Ne (EVar "err") ENil)
     [SReturn [(EVar "err")]]
     [SIf [] (EBin Ge (EVar "n") (EInt 0))
       [SAssign [(EField (EVar "t") "PartitionErrors")] [(EMake (GSlice (GNamed "StopReplicaPartitionError5")) (EVar "n"))];
        SFor [SDefine ["i"] [(EInt 0)]] (EBin Lt (EVar "i") (EVar "n")) [SOp (EVar "i") Add (EInt 1)]
         [SVar "item" (Some (GNamed "StopReplicaPartitionError5")) None;
          SIf [SDefine ["err"] [(EMethod (EAddr (EVar "item")) "Decode" [(EVar "d"); (EVar "version")])]] (EBin Ne (EVar "err") ENil)
           [SReturn [(EVar "err")]]
           [];
          SAssign [(EIndex (EField (EVar "t") "PartitionErrors") (EVar "i"))] [(EVar "item")]]]
       []];
   SReturn [(EVar "err")]].
(** message/messages.gen.go:2650 *)
Definition go_StopReplicaPartitionError5_Size : func := mkFunc [("t", GNamed "StopReplicaPartitionError5"); ("version", GInt I16)] [GInt I32]
  [SVar "sz" (Some (GInt I32)) None;
   SOp (EVar "sz") Add (ECall "sizeof.String" [(EField (EVar "t") "TopicName")]);
   SOp (EVar "sz") Add (EGlobal "sizeof.Int32");
   SOp (EVar "sz") Add (EGlobal "sizeof.Int16");
   SReturn [(EVar "sz")]].
(** message/messages.gen.go:2659 *)
Definition go_StopReplicaPartitionError5_Encode : func := mkFunc [("t", GNamed "StopReplicaPartitionError5"); ("e", GPtr (GNamed "Encoder")); ("version", GInt I16)] []
  [SExpr (EMethod (EVar "e") "PutString" [(EField (EVar "t") "TopicName")]);
   SExpr (EMethod (EVar "e") "PutInt32" [(EField (EVar "t") "PartitionIndex")]);
   SExpr (EMethod (EVar "e") "PutInt16" [(EField (EVar "t") "ErrorCode")])].
(** message/messages.gen.go:2666 *)
Definition go_StopReplicaPartitionError5_Decode : func := mkFunc [("t", GPtr (GNamed "StopReplicaPartitionError5")); ("d", GPtr (GNamed "Decoder")); ("version", GInt I16)] [GNamed "error"]
  [SVar "err" (Some (GNamed "error")) None;
   SAssign [(EField (EVar "t") "TopicName"); (EVar "err")] [(EMethod (EVar "d") "String" [])];
   SIf [] (EBin Ne (EVar "err") ENil)
     [SReturn [(EVar "err")]]
     [];
   SAssign [(EField (EVar "t") "PartitionIndex"); (EVar "err")] [(EMethod (EVar "d") "Int32" [])];
   SIf [] (EBin Ne (EVar "err") ENil)
     [SReturn [(EVar "err")]]
     [];
   SAssign [(EField (EVar "t") "ErrorCode"); (EVar "err")] [(EMethod (EVar "d") "Int16" [])];
   SIf [] (EBin Ne (EVar "err") ENil)
     [SReturn [(EVar "err")]]
     [];
   SReturn [(EVar "err")]].
(** message/messages.gen.go:2694 *)
Definition go_UpdateMetadataRequest_Size : func := mkFunc [("t", GNamed "UpdateMetadataRequest"); ("version", GInt I16)] [GInt I32]
  [SVar "sz" (Some (GInt I32)) None;
   SOp (EVar "sz") Add (EGlobal "sizeof.Int32");
   SOp (EVar "sz") Add (EGlobal "sizeof.Int32");
   SIf [] (EBin Ge (EVar "version") (EInt 5))
     [SOp (EVar "sz") Add (EGlobal "sizeof.Int64")]
     [];
   SIf [] (EBin And (EBin Ge (EVar "version") (EInt 0)) (EBin Le (EVar "version") (EInt 4)))
     [SOp (EVar "sz") Add (EGlobal "sizeof.ArrayLength");
      SFor [SDefine ["i"] [(EBin Sub (ELen (EField (EVar "t") "UngroupedPartitionStates")) (EInt 1))]] (EBin Ge (EVar "i") (EInt 0)) [SOp (EVar "i") Sub (EInt 1)]
       [SOp (EVar "sz") Add (EMethod (EIndex (EField (EVar "t") "UngroupedPartitionStates") (EVar "i")) "Size" [(EVar "version")])]]
     [];
   SIf [] (EBin Ge (EVar "version") (EInt 5))
     [SOp (EVar "sz") Add (EGlobal "sizeof.ArrayLength");
      SFor [SDefine ["i"] [(EBin Sub (ELen (EField (EVar "t") "TopicStates")) (EInt 1))]] (EBin Ge (EVar "i") (EInt 0)) [SOp (EVar "i") Sub (EInt 1)]
       [SOp (EVar "sz") Add (EMethod (EIndex (EField (EVar "t") "TopicStates") (EVar "i")) "Size" [(EVar "version")])]]
     [];
   SOp (EVar "sz") Add (EGlobal "sizeof.ArrayLength");
   SFor [SDefine ["i"] [(EBin Sub (ELen (EField (EVar "t") "LiveBrokers")) (EInt 1))]] (EBin Ge (EVar "i") (EInt 0)) [SOp (EVar "i") Sub (EInt 1)]
     [SOp (EVar "sz") Add (EMethod (EIndex (EField (EVar "t") "LiveBrokers") (EVar "i")) "Size" [(EVar "version")])];
   SReturn [(EVar "sz")]].
(** message/messages.gen.go:2721 *)
Definition go_UpdateMetadataRequest_Encode : func := mkFunc [("t", GNamed "UpdateMetadataRequest"); ("e", GPtr (GNamed "Encoder")); ("version", GInt I16)] []
  [SExpr (EMethod (EVar "e") "PutInt32" [(EField (EVar "t") "ControllerId")]);
   SExpr (EMethod (EVar "e") "PutInt32" [(EField (EVar "t") "ControllerEpoch")]);
   SIf [] (EBin Ge (EVar "version") (EInt 5))
     [SExpr (EMethod (EVar "e") "PutInt64" [(EField (EVar "t") "BrokerEpoch")])]
     [];
   SIf [] (EBin And (EBin Ge (EVar "version") (EInt 0)) (EBin Le (EVar "version") (EInt 4)))
     [SDefine ["len3"] [(ELen (EField (EVar "t") "UngroupedPartitionStates"))];
      SExpr (EMethod (EVar "e") "PutArrayLength" [(EVar "len3")]);
      SFor [SDefine ["i"] [(EInt 0)]] (EBin Lt (EVar "i") (EVar "len3")) [SOp (EVar "i") Add (EInt 1)]
       [SExpr (EMethod (EIndex (EField (EVar "t") "UngroupedPartitionStates") (EVar "i")) "Encode" [(EVar "e"); (EVar "version")])]]
     [];
   SIf [] (EBin Ge (EVar "version") (EInt 5))
     [SDefine ["len4"] [(ELen (EField (EVar "t") "TopicStates"))];
      SExpr (EMethod (EVar "e") "PutArrayLength" [(EVar "len4")]);
      SFor [SDefine ["i"] [(EInt 0)]] (EBin Lt (EVar "i") (EVar "len4")) [SOp (EVar "i") Add (EInt 1)]
       [SExpr (EMethod (EIndex (EField (EVar "t") "TopicStates") (EVar "i")) "Encode" [(EVar "e"); (EVar "version")])]]
     [];
   SDefine ["len5"] [(ELen (EField (EVar "t") "LiveBrokers"))];
   SExpr (EMethod (EVar "e") "PutArrayLength" [(EVar "len5")]);
   SFor [SDefine ["i"] [(EInt 0)]] (EBin Lt (EVar "i") (EVar "len5")) [SOp (EVar "i") Add (EInt 1)]
     [SExpr (EMethod (EIndex (EField (EVar "t") "LiveBrokers") (EVar "i")) "Encode" [(EVar "e"); (EVar "version")])]].
(** message/messages.gen.go:2752 *)
Definition go_UpdateMetadataRequest_Decode : func := mkFunc [("t", GPtr (GNamed "UpdateMetadataRequest")); ("d", GPtr (GNamed "Decoder")); ("version", GInt I16)] [GNamed "error"]
  [SVar "err" (Some (GNamed "error")) None;
   SAssign [(EField (EVar "t") "ControllerId"); (EVar "err")] [(EMethod (EVar "d") "Int32" [])];
   SIf [] (EBin Ne (EVar "err") ENil)
     [SReturn [(EVar "err")]]
     [];
   SAssign [(EField (EVar "t") "ControllerEpoch"); (EVar "err")] [(EMethod (EVar "d") "Int32" [])];
   SIf [] (EBin Ne (EVar "err") ENil)
     [SReturn [(EVar "err")]]
     [];
   SIf [] (EBin Ge (EVar "version") (EInt 5))
     [SAssign [(EField (EVar "t") "BrokerEpoch"); (EVar "err")] [(EMethod (EVar "d") "Int64" [])];
      SIf [] (EBin Ne (EVar "err") ENil)
       [SReturn [(EVar "err")]]
       []]
     [];
   SIf [] (EBin And (EBin Ge (EVar "version") (EInt 0)) (EBin Le (EVar "version") (EInt 4)))
     [SIf [SDefine ["n"; "err"] [(EMethod (EVar "d") "ArrayLength" [])]] (EBin Ne (EVar "err") ENil)
       [SReturn [(EVar "err")]]
       [SIf [] (EBin Ge (EVar "n") (EInt 0))
         [SAssign [(EField (EVar "t") "UngroupedPartitionStates")] [(EMake (GSlice (GNamed "UpdateMetadataPartitionState6")) (EVar "n"))];
          SFor [SDefine ["i"] [(EInt 0)]] (EBin Lt (EVar "i") (EVar "n")) [SOp (EVar "i") Add (EInt 1)]
           [SVar "item" (Some (GNamed "UpdateMetadataPartitionState6")) None;
            SIf [SDefine ["err"] [(EMethod (EAddr (EVar "item")) "Decode" [(EVar "d"); (EVar "version")])]] (EBin Ne (EVar "err") ENil)
             [SReturn [(EVar "err")]]
             [];
            SAssign [(EIndex (EField (EVar "t") "UngroupedPartitionStates") (EVar "i"))] [(EVar "item")]]]
         []]]
     [];
   SIf [] (EBin Ge (EVar "version") (EInt 5))
     [SIf [SDefine ["n"; "err"] [(EMethod (EVar "d") "ArrayLength" [])]] (EBin Ne (EVar "err") ENil)
       [SReturn [(EVar "err")]]
       [SIf [] (EBin Ge (EVar "n") (EInt 0))
         [SAssign [(EField (EVar "t") "TopicStates")] [(EMake (GSlice (GNamed "UpdateMetadataTopicState6")) (EVar "n"))];
          SFor [SDefine ["i"] [(EInt 0)]] (EBin Lt (EVar "i") (EVar "n")) [SOp (EVar "i") Add (EInt 1)]
           [SVar "item" (Some (GNamed "UpdateMetadataTopicState6")) None;
            SIf [SDefine ["err"] [(EMethod (EAddr (EVar "item")) "Decode" [(EVar "d"); (EVar "version")])]] (EBin Ne (EVar "err") ENil)
             [SReturn [(EVar "err")]]
             [];
            SAssign [(EIndex (EField (EVar "t") "TopicStates") (EVar "i"))] [(EVar "item")]]]
         []]]
     [];
   SIf [SDefine ["n"; "err"] [(EMethod (EVar "d") "ArrayLength" [])]] (EBin Ne (EVar "err") ENil)
     [SReturn [(EVar "err")]]
     [SIf [] (EBin Ge (EVar "n") (EInt 0))
       [SAssign [(EField (EVar "t") "LiveBrokers")] [(EMake (GSlice (GNamed "UpdateMetadataBroker6")) (EVar "n"))];
        SFor [SDefine ["i"] [(EInt 0)]] (EBin Lt (EVar "i") (EVar "n")) [SOp (EVar "i") Add (EInt 1)]
         [SVar "item" (Some (GNamed "UpdateMetadataBroker6")) None;
          SIf [SDefine ["err"] [(EMethod (EAddr (EVar "item")) "Decode" [(EVar "d"); (EVar "version")])]] (EBin Ne (EVar "err") ENil)
           [SReturn [(EVar "err")]]
           [];
          SAssign [(EIndex (EField (EVar "t") "LiveBrokers") (EVar "i"))] [(EVar "item")]]]
       []];
   SReturn [(EVar "err")]].
(** message/messages.gen.go:2820 *)
Definition go_UpdateMetadataTopicState6_Size : func := mkFunc [("t", GNamed "UpdateMetadataTopicState6"); ("version", GInt I16)] [GInt I32]
  [SVar "sz" (Some (GInt I32)) None;
   SIf [] (EBin Ge (EVar "version") (EInt 5))
     [SOp (EVar "sz") Add (ECall "sizeof.String" [(EField (EVar "t") "TopicName")])]
     [];
   SIf [] (EBin Ge (EVar "version") (EInt 5))
     [SOp (EVar "sz") Add (EGlobal "sizeof.ArrayLength");
      SFor [SDefine ["i"] [(EBin Sub (ELen (EField (EVar "t") "PartitionStates")) (EInt 1))]] (EBin Ge (EVar "i") (EInt 0)) [SOp (EVar "i") Sub (EInt 1)]
       [SOp (EVar "sz") Add (EMethod (EIndex (EField (EVar "t") "PartitionStates") (EVar "i")) "Size" [(EVar "version")])]]
     [];
   SReturn [(EVar "sz")]].
(** message/messages.gen.go:2835 *)
Definition go_UpdateMetadataTopicState6_Encode : func := mkFunc [("t", GNamed "UpdateMetadataTopicState6"); ("e", GPtr (GNamed "Encoder")); ("version", GInt I16)] []
  [SIf [] (EBin Ge (EVar "version") (EInt 5))
     [SExpr (EMethod (EVar "e") "PutString" [(EField (EVar "t") "TopicName")])]
     [];
   SIf [] (EBin Ge (EVar "version") (EInt 5))
     [SDefine ["len1"] [(ELen (EField (EVar "t") "PartitionStates"))];
      SExpr (EMethod (EVar "e") "PutArrayLength" [(EVar "len1")]);
      SFor [SDefine ["i"] [(EInt 0)]] (EBin Lt (EVar "i") (EVar "len1")) [SOp (EVar "i") Add (EInt 1)]
       [SExpr (EMethod (EIndex (EField (EVar "t") "PartitionStates") (EVar "i")) "Encode" [(EVar "e"); (EVar "version")])]]
     []].
(** message/messages.gen.go:2850 *)
Definition go_UpdateMetadataTopicState6_Decode : func := mkFunc [("t", GPtr (GNamed "UpdateMetadataTopicState6")); ("d", GPtr (GNamed "Decoder")); ("version", GInt I16)] [GNamed "error"]
  [SVar "err" (Some (GNamed "error")) None;
   SIf [] (EBin Ge (EVar "version") (EInt 5))
     [SAssign [(EField (EVar "t") "TopicName"); (EVar "err")] [(EMethod (EVar "d") "String" [])];
      SIf [] (EBin Ne (EVar "err") ENil)
       [SReturn [(EVar "err")]]
       []]
     [];
   SIf [] (EBin Ge (EVar "version") (EInt 5))
     [SIf [SDefine ["n"; "err"] [(EMethod (EVar "d") "ArrayLength" [])]] (EBin Ne (EVar "err") ENil)
       [SReturn [(EVar "err")]]
       [SIf [] (EBin Ge (EVar "n") (EInt 0))
         [SAssign [(EField (EVar "t") "PartitionStates")] [(EMake (GSlice (GNamed "UpdateMetadataPartitionState6")) (EVar "n"))];
          SFor [SDefine ["i"] [(EInt 0)]] (EBin Lt (EVar "i") (EVar "n")) [SOp (EVar "i") Add (EInt 1)]
           [SVar "item" (Some (GNamed "UpdateMetadataPartitionState6")) None;
            SIf [SDefine ["err"] [(EMethod (EAddr (EVar "item")) "Decode" [(EVar "d"); (EVar "version")])]] (EBin Ne (EVar "err") ENil)
             [SReturn [(EVar "err")]]
             [];
            SAssign [(EIndex (EField (EVar "t") "PartitionStates") (EVar "i"))] [(EVar "item")]]]
         []]]
     [];
   SReturn [(EVar "err")]].
(** message/messages.gen.go:2885 *)
Definition go_UpdateMetadataBroker6_Size : func := mkFunc [("t", GNamed "UpdateMetadataBroker6"); ("version", GInt I16)] [GInt I32]
  [SVar "sz" (Some (GInt I32)) None;
   SOp (EVar "sz") Add (EGlobal "sizeof.Int32");
   SIf [] (EBin And (EBin Ge (EVar "version") (EInt 0)) (EBin Le (EVar "version") (EInt 0)))
     [SOp (EVar "sz") Add (ECall "sizeof.String" [(EField (EVar "t") "V0Host")])]
     [];
   SIf [] (EBin And (EBin Ge (EVar "version") (EInt 0)) (EBin Le (EVar "version") (EInt 0)))
     [SOp (EVar "sz") Add (EGlobal "sizeof.Int32")]
     [];
   SIf [] (EBin Ge (EVar "version") (EInt 1))
     [SOp (EVar "sz") Add (EGlobal "sizeof.ArrayLength");
      SFor [SDefine ["i"] [(EBin Sub (ELen (EField (EVar "t") "Endpoints")) (EInt 1))]] (EBin Ge (EVar "i") (EInt 0)) [SOp (EVar "i") Sub (EInt 1)]
       [SOp (EVar "sz") Add (EMethod (EIndex (EField (EVar "t") "Endpoints") (EVar "i")) "Size" [(EVar "version")])]]
     [];
   SIf [] (EBin Ge (EVar "version") (EInt 2))
     [SOp (EVar "sz") Add (ECall "sizeof.String" [(EField (EVar "t") "Rack")])]
     [];
   SReturn [(EVar "sz")]].
(** message/messages.gen.go:2907 *)
Definition go_UpdateMetadataBroker6_Encode : func := mkFunc [("t", GNamed "UpdateMetadataBroker6"); ("e", GPtr (GNamed "Encoder")); ("version", GInt I16)] []
  [SExpr (EMethod (EVar "e") "PutInt32" [(EField (EVar "t") "Id")]);
   SIf [] (EBin And (EBin Ge (EVar "version") (EInt 0)) (EBin Le (EVar "version") (EInt 0)))
     [SExpr (EMethod (EVar "e") "PutString" [(EField (EVar "t") "V0Host")])]
     [];
   SIf [] (EBin And (EBin Ge (EVar "version") (EInt 0)) (EBin Le (EVar "version") (EInt 0)))
     [SExpr (EMethod (EVar "e") "PutInt32" [(EField (EVar "t") "V0Port")])]
     [];
   SIf [] (EBin Ge (EVar "version") (EInt 1))
     [SDefine ["len3"] [(ELen (EField (EVar "t") "Endpoints"))];
      SExpr (EMethod (EVar "e") "PutArrayLength" [(EVar "len3")]);
      SFor [SDefine ["i"] [(EInt 0)]] (EBin Lt (EVar "i") (EVar "len3")) [SOp (EVar "i") Add (EInt 1)]
       [SExpr (EMethod (EIndex (EField (EVar "t") "Endpoints") (EVar "i")) "Encode" [(EVar "e"); (EVar "version")])]]
     [];
   SIf [] (EBin Ge (EVar "version") (EInt 2))
     [SExpr (EMethod (EVar "e") "PutString" [(EField (EVar "t") "Rack")])]
     []].
(** message/messages.gen.go:2929 *)
Definition go_UpdateMetadataBroker6_Decode : func := mkFunc [("t", GPtr (GNamed "UpdateMetadataBroker6")); ("d", GPtr (GNamed "Decoder")); ("version", GInt I16)] [GNamed "error"]
  [SVar "err" (Some (GNamed "error")) None;
   SAssign [(EField (EVar "t") "Id"); (EVar "err")] [(EMethod (EVar "d") "Int32" [])];
   SIf [] (EBin Ne (EVar "err") ENil)
     [SReturn [(EVar "err")]]
     [];
   SIf [] (EBin And (EBin Ge (EVar "version") (EInt 0)) (EBin Le (EVar "version") (EInt 0)))
     [SAssign [(EField (EVar "t") "V0Host"); (EVar "err")] [(EMethod (EVar "d") "String" [])];
      SIf [] (EBin Ne (EVar "err") ENil)
       [SReturn [(EVar "err")]]
       []]
     [];
   SIf [] (EBin And (EBin Ge (EVar "version") (EInt 0)) (EBin Le (EVar "version") (EInt 0)))
     [SAssign [(EField (EVar "t") "V0Port"); (EVar "err")] [(EMethod (EVar "d") "Int32" [])];
      SIf [] (EBin Ne (EVar "err") ENil)
       [SReturn [(EVar "err")]]
       []]
     [];
   SIf [] (EBin Ge (EVar "version") (EInt 1))
     [SIf [SDefine ["n"; "err"] [(EMethod (EVar "d") "ArrayLength" [])]] (EBin Ne (EVar "err") ENil)
       [SReturn [(EVar "err")]]
       [SIf [] (EBin Ge (EVar "n") (EInt 0))
         [SAssign [(EField (EVar "t") "Endpoints")] [(EMake (GSlice (GNamed "UpdateMetadataEndpoint6")) (EVar "n"))];
          SFor [SDefine ["i"] [(EInt 0)]] (EBin Lt (EVar "i") (EVar "n")) [SOp (EVar "i") Add (EInt 1)]
           [SVar "item" (Some (GNamed "UpdateMetadataEndpoint6")) None;
            SIf [SDefine ["err"] [(EMethod (EAddr (EVar "item")) "Decode" [(EVar "d"); (EVar "version")])]] (EBin Ne (EVar "err") ENil)
             [SReturn [(EVar "err")]]
             [];
            SAssign [(EIndex (EField (EVar "t") "Endpoints") (EVar "i"))] [(EVar "item")]]]
         []]]
     [];
   SIf [] (EBin Ge (EVar "version") (EInt 2))
     [SAssign [(EField (EVar "t") "Rack"); (EVar "err")] [(EMethod (EVar "d") "String" [])];
      SIf [] (EBin Ne (EVar "err") ENil)
       [SReturn [(EVar "err")]]
       []]
     [];
   SReturn [(EVar "err")]].
(** message/messages.gen.go:2979 *)
Definition go_UpdateMetadataEndpoint6_Size : func := mkFunc [("t", GNamed "UpdateMetadataEndpoint6"); ("version", GInt I16)] [GInt I32]
  [SVar "sz" (Some (GInt I32)) None;
   SIf [] (EBin Ge (EVar "version") (EInt 1))
     [SOp (EVar "sz") Add (EGlobal "sizeof.Int32")]
     [];
   SIf [] (EBin Ge (EVar "version") (EInt 1))
     [SOp (EVar "sz") Add (ECall "sizeof.String" [(EField (EVar "t") "Host")])]
     [];
   SIf [] (EBin Ge (EVar "version") (EInt 3))
     [SOp (EVar "sz") Add (ECall "sizeof.String" [(EField (EVar "t") "Listener")])]
     [];
   SIf [] (EBin Ge (EVar "version") (EInt 1))
     [SOp (EVar "sz") Add (EGlobal "sizeof.Int16")]
     [];
   SReturn [(EVar "sz")]].
(** message/messages.gen.go:2997 *)
Definition go_UpdateMetadataEndpoint6_Encode : func := mkFunc [("t", GNamed "UpdateMetadataEndpoint6"); ("e", GPtr (GNamed "Encoder")); ("version", GInt I16)] []
  [SIf [] (EBin Ge (EVar "version") (EInt 1))
     [SExpr (EMethod (EVar "e") "PutInt32" [(EField (EVar "t") "Port")])]
     [];
   SIf [] (EBin Ge (EVar "version") (EInt 1))
     [SExpr (EMethod (EVar "e") "PutString" [(EField (EVar "t") "Host")])]
     [];
   SIf [] (EBin Ge (EVar "version") (EInt 3))
     [SExpr (EMethod (EVar "e") "PutString" [(EField (EVar "t") "Listener")])]
     [];
   SIf [] (EBin Ge (EVar "version") (EInt 1))
     [SExpr (EMethod (EVar "e") "PutInt16" [(EField (EVar "t") "SecurityProtocol")])]
     []].
(** message/messages.gen.go:3013 *)
Definition go_UpdateMetadataEndpoint6_Decode : func := mkFunc [("t", GPtr (GNamed "UpdateMetadataEndpoint6")); ("d", GPtr (GNamed "Decoder")); ("version", GInt I16)] [GNamed "error"]
  [SVar "err" (Some (GNamed "error")) None;
   SIf [] (EBin Ge (EVar "version") (EInt 1))
     [SAssign [(EField (EVar "t") "Port"); (EVar "err")] [(EMethod (EVar "d") "Int32" [])];
      SIf [] (EBin Ne (EVar "err") ENil)
       [SReturn [(EVar "err")]]
       []]
     [];
   SIf [] (EBin Ge (EVar "version") (EInt 1))
     [SAssign [(EField (EVar "t") "Host"); (EVar "err")] [(EMethod (EVar "d") "String" [])];
      SIf [] (EBin Ne (EVar "err") ENil)
       [SReturn [(EVar "err")]]
       []]
     [];
   SIf [] (EBin Ge (EVar "version") (EInt 3))
     [SAssign [(EField (EVar "t") "Listener"); (EVar "err")] [(EMethod (EVar "d") "String" [])];
      SIf [] (EBin Ne (EVar "err") ENil)
       [SReturn [(EVar "err")]]
       []]
     [];
   SIf [] (EBin Ge (EVar "version") (EInt 1))
     [SAssign [(EField (EVar "t") "SecurityProtocol"); (EVar "err")] [(EMethod (EVar "d") "Int16" [])];
      SIf [] (EBin Ne (EVar "err") ENil)
       [SReturn [(EVar "err")]]
       []]
     [];
   SReturn [(EVar "err")]].
(** message/messages.gen.go:3055 *)
Definition go_UpdateMetadataPartitionState6_Size : func := mkFunc [("t", GNamed "UpdateMetadataPartitionState6"); ("version", GInt I16)] [GInt I32]
  [SVar "sz" (Some (GInt I32)) None;
   SIf [] (EBin And (EBin Ge (EVar "version") (EInt 0)) (EBin Le (EVar "version") (EInt 4)))
     [SOp (EVar "sz") Add (ECall "sizeof.String" [(EField (EVar "t") "TopicName")])]
     [];
   SOp (EVar "sz") Add (EGlobal "sizeof.Int32");
   SOp (EVar "sz") Add (EGlobal "sizeof.Int32");
   SOp (EVar "sz") Add (EGlobal "sizeof.Int32");
   SOp (EVar "sz") Add (EGlobal "sizeof.Int32");
   SOp (EVar "sz") Add (ECall "sizeof.Int32Array" [(EField (EVar "t") "Isr")]);
   SOp (EVar "sz") Add (EGlobal "sizeof.Int32");
   SOp (EVar "sz") Add (ECall "sizeof.Int32Array" [(EField (EVar "t") "Replicas")]);
   SIf [] (EBin Ge (EVar "version") (EInt 4))
     [SOp (EVar "sz") Add (ECall "sizeof.Int32Array" [(EField (EVar "t") "OfflineReplicas")])]
     [];
   SReturn [(EVar "sz")]].
(** message/messages.gen.go:3074 *)
Definition go_UpdateMetadataPartitionState6_Encode : func := mkFunc [("t", GNamed "UpdateMetadataPartitionState6"); ("e", GPtr (GNamed "Encoder")); ("version", GInt I16)] []
  [SIf [] (EBin And (EBin Ge (EVar "version") (EInt 0)) (EBin Le (EVar "version") (EInt 4)))
     [SExpr (EMethod (EVar "e") "PutString" [(EField (EVar "t") "TopicName")])]
     [];
   SExpr (EMethod (EVar "e") "PutInt32" [(EField (EVar "t") "PartitionIndex")]);
   SExpr (EMethod (EVar "e") "PutInt32" [(EField (EVar "t") "ControllerEpoch")]);
   SExpr (EMethod (EVar "e") "PutInt32" [(EField (EVar "t") "Leader")]);
   SExpr (EMethod (EVar "e") "PutInt32" [(EField (EVar "t") "LeaderEpoch")]);
   SExpr (EMethod (EVar "e") "PutInt32Array" [(EField (EVar "t") "Isr")]);
   SExpr (EMethod (EVar "e") "PutInt32" [(EField (EVar "t") "ZkVersion")]);
   SExpr (EMethod (EVar "e") "PutInt32Array" [(EField (EVar "t") "Replicas")]);
   SIf [] (EBin Ge (EVar "version") (EInt 4))
     [SExpr (EMethod (EVar "e") "PutInt32Array" [(EField (EVar "t") "OfflineReplicas")])]
     []].
(** message/messages.gen.go:3091 *)
Definition go_UpdateMetadataPartitionState6_Decode : func := mkFunc [("t", GPtr (GNamed "UpdateMetadataPartitionState6")); ("d", GPtr (GNamed "Decoder")); ("version", GInt I16)] [GNamed "error"]
  [SVar "err" (Some (GNamed "error")) None;
   SIf [] (EBin And (EBin Ge (EVar "version") (EInt 0)) (EBin Le (EVar "version") (EInt 4)))
     [SAssign [(EField (EVar "t") "TopicName"); (EVar "err")] [(EMethod (EVar "d") "String" [])];
      SIf [] (EBin Ne (EVar "err") ENil)
       [SReturn [(EVar "err")]]
       []]
     [];
   SAssign [(EField (EVar "t") "PartitionIndex"); (EVar "err")] [(EMethod (EVar "d") "Int32" [])];
   SIf [] (EBin Ne (EVar "err") ENil)
     [SReturn [(EVar "err")]]
     [];
   SAssign [(EField (EVar "t") "ControllerEpoch"); (EVar "err")] [(EMethod (EVar "d") "Int32" [])];
   SIf [] (EBin Ne (EVar "err") ENil)
     [SReturn [(EVar "err")]]
     [];
   SAssign [(EField (EVar "t") "Leader"); (EVar "err")] [(EMethod (EVar "d") "Int32" [])];
   SIf [] (EBin Ne (EVar "err") ENil)
     [SReturn [(EVar "err")]]
     [];
   SAssign [(EField (EVar "t") "LeaderEpoch"); (EVar "err")] [(EMethod (EVar "d") "Int32" [])];
   SIf [] (EBin Ne (EVar "err") ENil)
     [SReturn [(EVar "err")]]
     [];
   SAssign [(EField (EVar "t") "Isr"); (EVar "err")] [(EMethod (EVar "d") "Int32Array" [])];
   SIf [] (EBin Ne (EVar "err") ENil)
     [SReturn [(EVar "err")]]
     [];
   SAssign [(EField (EVar "t") "ZkVersion"); (EVar "err")] [(EMethod (EVar "d") "Int32" [])];
   SIf [] (EBin Ne (EVar "err") ENil)
     [SReturn [(EVar "err")]]
     [];
   SAssign [(EField (EVar "t") "Replicas"); (EVar "err")] [(EMethod (EVar "d") "Int32Array" [])];
   SIf [] (EBin Ne (EVar "err") ENil)
     [SReturn [(EVar "err")]]
     [];
   SIf [] (EBin Ge (EVar "version") (EInt 4))
     [SAssign [(EField (EVar "t") "OfflineReplicas"); (EVar "err")] [(EMethod (EVar "d") "Int32Array" [])];
      SIf [] (EBin Ne (EVar "err") ENil)
       [SReturn [(EVar "err")]]
       []]
     [];
   SReturn [(EVar "err")]].
(** message/messages.gen.go:3142 *)
Definition go_UpdateMetadataResponse_Size : func := mkFunc [("t", GNamed "UpdateMetadataResponse"); ("version", GInt I16)] [GInt I32]
  [SVar "sz" (Some (GInt I32)) None;
   SOp (EVar "sz") Add (EGlobal "sizeof.Int16");
   SReturn [(EVar "sz")]].
(** message/messages.gen.go:3149 *)
Definition go_UpdateMetadataResponse_Encode : func := mkFunc [("t", GNamed "UpdateMetadataResponse"); ("e", GPtr (GNamed "Encoder")); ("version", GInt I16)] []
  [SExpr (EMethod (EVar "e") "PutInt16" [(EField (EVar "t") "ErrorCode")])].
(** message/messages.gen.go:3154 *)
Definition go_UpdateMetadataResponse_Decode : func := mkFunc [("t", GPtr (GNamed "UpdateMetadataResponse")); ("d", GPtr (GNamed "Decoder")); ("version", GInt I16)] [GNamed "error"]
  [SVar "err" (Some (GNamed "error")) None;
   SAssign [(EField (EVar "t") "ErrorCode"); (EVar "err")] [(EMethod (EVar "d") "Int16" [])];
   SIf [] (EBin Ne (EVar "err") ENil)
     [SReturn [(EVar "err")]]
     [];
   SReturn [(EVar "err")]].
(** message/messages.gen.go:3170 *)
Definition go_ControlledShutdownRequest_Size : func := mkFunc [("t", GNamed "ControlledShutdownRequest"); ("version", GInt I16)] [GInt I32]
  [SVar "sz" (Some (GInt I32)) None;
   SOp (EVar "sz") Add (EGlobal "sizeof.Int32");
   SIf [] (EBin Ge (EVar "version") (EInt 2))
     [SOp (EVar "sz") Add (EGlobal "sizeof.Int64")]
     [];
   SReturn [(EVar "sz")]].
(** message/messages.gen.go:3180 *)
Definition go_ControlledShutdownRequest_Encode : func := mkFunc [("t", GNamed "ControlledShutdownRequest"); ("e", GPtr (GNamed "Encoder")); ("version", GInt I16)] []
  [SExpr (EMethod (EVar "e") "PutInt32" [(EField (EVar "t") "BrokerId")]);
   SIf [] (EBin Ge (EVar "version") (EInt 2))
     [SExpr (EMethod (EVar "e") "PutInt64" [(EField (EVar "t") "BrokerEpoch")])]
     []].
(** message/messages.gen.go:3188 *)
Definition go_ControlledShutdownRequest_Decode : func := mkFunc [("t", GPtr (GNamed "ControlledShutdownRequest")); ("d", GPtr (GNamed "Decoder")); ("version", GInt I16)] [GNamed "error"]
  [SVar "err" (Some (GNamed "error")) None;
   SAssign [(EField (EVar "t") "BrokerId"); (EVar "err")] [(EMethod (EVar "d") "Int32" [])];
   SIf [] (EBin Ne (EVar "err") ENil)
     [SReturn [(EVar "err")]]
     [];
   SIf [] (EBin Ge (EVar "version") (EInt 2))
     [SAssign [(EField (EVar "t") "BrokerEpoch"); (EVar "err")] [(EMethod (EVar "d") "Int64" [])];
      SIf [] (EBin Ne (EVar "err") ENil)
       [SReturn [(EVar "err")]]
       []]
     [];
   SReturn [(EVar "err")]].
(** message/messages.gen.go:3210 *)
Definition go_ControlledShutdownResponse_Size : func := mkFunc [("t", GNamed "ControlledShutdownResponse"); ("version", GInt I16)] [GInt I32]
  [SVar "sz" (Some (GInt I32)) None;
   SOp (EVar "sz") Add (EGlobal "sizeof.Int16");
   SOp (EVar "sz") Add (EGlobal "sizeof.ArrayLength");
   SFor [SDefine ["i"] [(EBin Sub (ELen (EField (EVar "t") "RemainingPartitions")) (EInt 1))]] (EBin Ge (EVar "i") (EInt 0)) [SOp (EVar "i") Sub (EInt 1)]
     [SOp (EVar "sz") Add (EMethod (EIndex (EField (EVar "t") "RemainingPartitions") (EVar "i")) "Size" [(EVar "version")])];
   SReturn [(EVar "sz")]].
(** message/messages.gen.go:3221 *)
Definition go_ControlledShutdownResponse_Encode : func := mkFunc [("t", GNamed "ControlledShutdownResponse"); ("e", GPtr (GNamed "Encoder")); ("version", GInt I16)] []
  [SExpr (EMethod (EVar "e") "PutInt16" [(EField (EVar "t") "ErrorCode")]);
   SDefine ["len1"] [(ELen (EField (EVar "t") "RemainingPartitions"))];
   SExpr (EMethod (EVar "e") "PutArrayLength" [(EVar "len1")]);
   SFor [SDefine ["i"] [(EInt 0)]] (EBin Lt (EVar "i") (EVar "len1")) [SOp (EVar "i") Add (EInt 1)]
     [SExpr (EMethod (EIndex (EField (EVar "t") "RemainingPartitions") (EVar "i")) "Encode" [(EVar "e"); (EVar "version")])]].
(** message/messages.gen.go:3232 *)
Definition go_ControlledShutdownResponse_Decode : func := mkFunc [("t", GPtr (GNamed "ControlledShutdownResponse")); ("d", GPtr (GNamed "Decoder")); ("version", GInt I16)] [GNamed "error"]
  [SVar "err" (Some (GNamed "error")) None;
   SAssign [(EField (EVar "t") "ErrorCode"); (EVar "err")] [(EMethod (EVar "d") "Int16" [])];
   SIf [] (EBin Ne (EVar "err") ENil)
     [SReturn [(EVar "err")]]
     [];
   SIf [SDefine ["n"; "err"] [(EMethod (EVar "d") "ArrayLength" [])]] (EBin Ne (EVar "err") ENil)
     [SReturn [(EVar "err")]]
     [SIf [] (EBin Ge (EVar "n") (EInt 0))
       [SAssign [(EField (EVar "t") "RemainingPartitions")] [(EMake (GSlice (GNamed "RemainingPartition7")) (EVar "n"))];
        SFor [SDefine ["i"] [(EInt 0)]] (EBin Lt (EVar "i") (EVar "n")) [SOp (EVar "i") Add (EInt 1)]
         [SVar "item" (Some (GNamed "RemainingPartition7")) None;
          SIf [SDefine ["err"] [(EMethod (EAddr (EVar "item")) "Decode" [(EVar "d"); (EVar "version")])]] (EBin Ne (EVar "err") ENil)
           [SReturn [(EVar "err")]]
           [];
          SAssign [(EIndex (EField (EVar "t") "RemainingPartitions") (EVar "i"))] [(EVar "item")]]]
       []];
   SReturn [(EVar "err")]].
(** message/messages.gen.go:3260 *)
Definition go_RemainingPartition7_Size : func := mkFunc [("t", GNamed "RemainingPartition7"); ("version", GInt I16)] [GInt I32]
  [SVar "sz" (Some (GInt I32)) None;
   SOp (EVar "sz") Add (ECall "sizeof.String" [(EField (EVar "t") "TopicName")]);
   SOp (EVar "sz") Add (EGlobal "sizeof.Int32");
   SReturn [(EVar "sz")]].
(** message/messages.gen.go:3268 *)
Definition go_RemainingPartition7_Encode : func := mkFunc [("t", GNamed "RemainingPartition7"); ("e", GPtr (GNamed "Encoder")); ("version", GInt I16)] []
  [SExpr (EMethod (EVar "e") "PutString" [(EField (EVar "t") "TopicName")]);
   SExpr (EMethod (EVar "e") "PutInt32" [(EField (EVar "t") "PartitionIndex")])].
(** message/messages.gen.go:3274 *)
Definition go_RemainingPartition7_Decode : func := mkFunc [("t", GPtr (GNamed "RemainingPartition7")); ("d", GPtr (GNamed "Decoder")); ("version", GInt I16)] [GNamed "error"]
  [SVar "err" (Some (GNamed "error")) None;
   SAssign [(EField (EVar "t") "TopicName"); (EVar "err")] [(EMethod (EVar "d") "String" [])];
   SIf [] (EBin Ne (EVar "err") ENil)
     [SReturn [(EVar "err")]]
     [];
   SAssign [(EField (EVar "t") "PartitionIndex"); (EVar "err")] [(EMethod (EVar "d") "Int32" [])];
   SIf [] (EBin Ne (EVar "err") ENil)
     [SReturn [(EVar "err")]]
     [];
   SReturn [(EVar "err")]].
(** message/messages.gen.go:3298 *)
Definition go_OffsetCommitRequest_Size : func := mkFunc [("t", GNamed "OffsetCommitRequest"); ("version", GInt I16)] [GInt I32]
  [SVar "sz" (Some (GInt I32)) None;
   SOp (EVar "sz") Add (ECall "sizeof.String" [(EField (EVar "t") "GroupId")]);
   SIf [] (EBin Ge (EVar "version") (EInt 1))
     [SOp (EVar "sz") Add (EGlobal "sizeof.Int32")]
     [];
   SIf [] (EBin Ge (EVar "version") (EInt 1))
     [SOp (EVar "sz") Add (ECall "sizeof.String" [(EField (EVar "t") "MemberId")])]
     [];
   SIf [] (EBin Ge (EVar "version") (EInt 7))
     [SOp (EVar "sz") Add (ECall "sizeof.String" [(EField (EVar "t") "GroupInstanceId")])]
     [];
   SIf [] (EBin And (EBin Ge (EVar "version") (EInt 2)) (EBin Le (EVar "version") (EInt 4)))
     [SOp (EVar "sz") Add (EGlobal "sizeof.Int64")]
     [];
   SOp (EVar "sz") Add (EGlobal "sizeof.ArrayLength");
   SFor [SDefine ["i"] [(EBin Sub (ELen (EField (EVar "t") "Topics")) (EInt 1))]] (EBin Ge (EVar "i") (EInt 0)) [SOp (EVar "i") Sub (EInt 1)]
     [SOp (EVar "sz") Add (EMethod (EIndex (EField (EVar "t") "Topics") (EVar "i")) "Size" [(EVar "version")])];
   SReturn [(EVar "sz")]].
(** message/messages.gen.go:3321 *)
Definition go_OffsetCommitRequest_Encode : func := mkFunc [("t", GNamed "OffsetCommitRequest"); ("e", GPtr (GNamed "Encoder")); ("version", GInt I16)] []
  [SExpr (EMethod (EVar "e") "PutString" [(EField (EVar "t") "GroupId")]);
   SIf [] (EBin Ge (EVar "version") (EInt 1))
     [SExpr (EMethod (EVar "e") "PutInt32" [(EField (EVar "t") "GenerationId")])]
     [];
   SIf [] (EBin Ge (EVar "version") (EInt 1))
     [SExpr (EMethod (EVar "e") "PutString" [(EField (EVar "t") "MemberId")])]
     [];
   SIf [] (EBin Ge (EVar "version") (EInt 7))
     [SExpr (EMethod (EVar "e") "PutString" [(EField (EVar "t") "GroupInstanceId")])]
     [];
   SIf [] (EBin And (EBin Ge (EVar "version") (EInt 2)) (EBin Le (EVar "version") (EInt 4)))
     [SExpr (EMethod (EVar "e") "PutInt64" [(EField (EVar "t") "RetentionTimeMs")])]
     [];
   SDefine ["len5"] [(ELen (EField (EVar "t") "Topics"))];
   SExpr (EMethod (EVar "e") "PutArrayLength" [(EVar "len5")]);
   SFor [SDefine ["i"] [(EInt 0)]] (EBin Lt (EVar "i") (EVar "len5")) [SOp (EVar "i") Add (EInt 1)]
     [SExpr (EMethod (EIndex (EField (EVar "t") "Topics") (EVar "i")) "Encode" [(EVar "e"); (EVar "version")])]].
(** message/messages.gen.go:3344 *)
Definition go_OffsetCommitRequest_Decode : func := mkFunc [("t", GPtr (GNamed "OffsetCommitRequest")); ("d", GPtr (GNamed "Decoder")); ("version", GInt I16)] [GNamed "error"]
  [SVar "err" (Some (GNamed "error")) None;
   SAssign [(EField (EVar "t") "GroupId"); (EVar "err")] [(EMethod (EVar "d") "String" [])];
   SIf [] (EBin Ne (EVar "err") ENil)
     [SReturn [(EVar "err")]]
     [];
   SIf [] (EBin Ge (EVar "version") (EInt 1))
     [SAssign [(EField (EVar "t") "GenerationId"); (EVar "err")] [(EMethod (EVar "d") "Int32" [])];
      SIf [] (EBin Ne (EVar "err") ENil)
       [SReturn [(EVar "err")]]
       []]
     [];
   SIf [] (EBin Ge (EVar "version") (EInt 1))
     [SAssign [(EField (EVar "t") "MemberId"); (EVar "err")] [(EMethod (EVar "d") "String" [])];
      SIf [] (EBin Ne (EVar "err") ENil)
       [SReturn [(EVar "err")]]
       []]
     [];
   SIf [] (EBin Ge (EVar "version") (EInt 7))
     [SAssign [(EField (EVar "t") "GroupInstanceId"); (EVar "err")] [(EMethod (EVar "d") "String" [])];
      SIf [] (EBin Ne (EVar "err") ENil)
       [SReturn [(EVar "err")]]
       []]
     [];
   SIf [] (EBin And (EBin Ge (EVar "version") (EInt 2)) (EBin Le (EVar "version") (EInt 4)))
     [SAssign [(EField (EVar "t") "RetentionTimeMs"); (EVar "err")] [(EMethod (EVar "d") "Int64" [])];
      SIf [] (EBin Ne (EVar "err") ENil)
       [SReturn [(EVar "err")]]
       []]
     [];
   SIf [SDefine ["n"; "err"] [(EMethod (EVar "d") "ArrayLength" [])]] (EBin Ne (EVar "err") ENil)
     [SReturn [(EVar "err")]]
     [SIf [] (EBin Ge (EVar "n") (EInt 0))
       [SAssign [(EField (EVar "t") "Topics")] [(EMake (GSlice (GNamed "OffsetCommitRequestTopic8")) (EVar "n"))];
        SFor [SDefine ["i"] [(EInt 0)]] (EBin Lt (EVar "i") (EVar "n")) [SOp (EVar "i") Add (EInt 1)]
         [SVar "item" (Some (GNamed "OffsetCommitRequestTopic8")) None;
          SIf [SDefine ["err"] [(EMethod (EAddr (EVar "item")) "Decode" [(EVar "d"); (EVar "version")])]] (EBin Ne (EVar "err") ENil)
           [SReturn [(EVar "err")]]
           [];
          SAssign [(EIndex (EField (EVar "t") "Topics") (EVar "i"))] [(EVar "item")]]]
       []];
   SReturn [(EVar "err")]].
(** message/messages.gen.go:3396 *)
Definition go_OffsetCommitRequestTopic8_Size : func := mkFunc [("t", GNamed "OffsetCommitRequestTopic8"); ("version", GInt I16)] [GInt I32]
  [SVar "sz" (Some (GInt I32)) None;
   SOp (EVar "sz") Add (ECall "sizeof.String" [(EField (EVar "t") "Name")]);
   SOp (EVar "sz") Add (EGlobal "sizeof.ArrayLength");
   SFor [SDefine ["i"] [(EBin Sub (ELen (EField (EVar "t") "Partitions")) (EInt 1))]] (EBin Ge (EVar "i") (EInt 0)) [SOp (EVar "i") Sub (EInt 1)]
     [SOp (EVar "sz") Add (EMethod (EIndex (EField (EVar "t") "Partitions") (EVar "i")) "Size" [(EVar "version")])];
   SReturn [(EVar "sz")]].
(** message/messages.gen.go:3407 *)
Definition go_OffsetCommitRequestTopic8_Encode : func := mkFunc [("t", GNamed "OffsetCommitRequestTopic8"); ("e", GPtr (GNamed "Encoder")); ("version", GInt I16)] []
  [SExpr (EMethod (EVar "e") "PutString" [(EField (EVar "t") "Name")]);
   SDefine ["len1"] [(ELen (EField (EVar "t") "Partitions"))];
   SExpr (EMethod (EVar "e") "PutArrayLength" [(EVar "len1")]);
   SFor [SDefine ["i"] [(EInt 0)]] (EBin Lt (EVar "i") (EVar "len1")) [SOp (EVar "i") Add (EInt 1)]
     [SExpr (EMethod (EIndex (EField (EVar "t") "Partitions") (EVar "i")) "Encode" [(EVar "e"); (EVar "version")])]].
(** message/messages.gen.go:3418 *)
Definition go_OffsetCommitRequestTopic8_Decode : func := mkFunc [("t", GPtr (GNamed "OffsetCommitRequestTopic8")); ("d", GPtr (GNamed "Decoder")); ("version", GInt I16)] [GNamed "error"]
  [SVar "err" (Some (GNamed "error")) None;
   SAssign [(EField (EVar "t") "Name"); (EVar "err")] [(EMethod (EVar "d") "String" [])];
   SIf [] (EBin Ne (EVar "err") ENil)
     [SReturn [(EVar "err")]]
     [];
   SIf [SDefine ["n"; "err"] [(EMethod (EVar "d") "ArrayLength" [])]] (EBin Ne (EVar "err") ENil)
     [SReturn [(EVar "err")]]
     [SIf [] (EBin Ge (EVar "n") (EInt 0))
       [SAssign [(EField (EVar "t") "Partitions")] [(EMake (GSlice (GNamed "OffsetCommitRequestPartition8")) (EVar "n"))];
        SFor [SDefine ["i"] [(EInt 0)]] (EBin Lt (EVar "i") (EVar "n")) [SOp (EVar "i") Add (EInt 1)]
         [SVar "item" (Some (GNamed "OffsetCommitRequestPartition8")) None;
          SIf [SDefine ["err"] [(EMethod (EAddr (EVar "item")) "Decode" [(EVar "d"); (EVar "version")])]] (EBin Ne (EVar "err") ENil)
           [SReturn [(EVar "err")]]
           [];
          SAssign [(EIndex (EField (EVar "t") "Partitions") (EVar "i"))] [(EVar "item")]]]
       []];
   SReturn [(EVar "err")]].
(** message/messages.gen.go:3448 *)
Definition go_OffsetCommitRequestPartition8_Size : func := mkFunc [("t", GNamed "OffsetCommitRequestPartition8"); ("version", GInt I16)] [GInt I32]
  [SVar "sz" (Some (GInt I32)) None;
   SOp (EVar "sz") Add (EGlobal "sizeof.Int32");
   SOp (EVar "sz") Add (EGlobal "sizeof.Int64");
   SIf [] (EBin Ge (EVar "version") (EInt 6))
     [SOp (EVar "sz") Add (EGlobal "sizeof.Int32")]
     [];
   SOp (EVar "sz") Add (ECall "sizeof.String" [(EField (EVar "t") "CommittedMetadata")]);
   SReturn [(EVar "sz")]].
(** message/messages.gen.go:3460 *)
Definition go_OffsetCommitRequestPartition8_Encode : func := mkFunc [("t", GNamed "OffsetCommitRequestPartition8"); ("e", GPtr (GNamed "Encoder")); ("version", GInt I16)] []
  [SExpr (EMethod (EVar "e") "PutInt32" [(EField (EVar "t") "PartitionIndex")]);
   SExpr (EMethod (EVar "e") "PutInt64" [(EField (EVar "t") "CommittedOffset")]);
   SIf [] (EBin Ge (EVar "version") (EInt 6))
     [SExpr (EMethod (EVar "e") "PutInt32" [(EField (EVar "t") "CommittedLeaderEpoch")])]
     [];
   SExpr (EMethod (EVar "e") "PutString" [(EField (EVar "t") "CommittedMetadata")])].
(** message/messages.gen.go:3470 *)
Definition go_OffsetCommitRequestPartition8_Decode : func := mkFunc [("t", GPtr (GNamed "OffsetCommitRequestPartition8")); ("d", GPtr (GNamed "Decoder")); ("version", GInt I16)] [GNamed "error"]
  [SVar "err" (Some (GNamed "error")) None;
   SAssign [(EField (EVar "t") "PartitionIndex"); (EVar "err")] [(EMethod (EVar "d") "Int32" [])];
   SIf [] (EBin Ne (EVar "err") ENil)
     [SReturn [(EVar "err")]]
     [];
   SAssign [(EField (EVar "t") "CommittedOffset"); (EVar "err")] [(EMethod (EVar "d") "Int64" [])];
   SIf [] (EBin Ne (EVar "err") ENil)
     [SReturn [(EVar "err")]]
     [];
   SIf [] (EBin Ge (EVar "version") (EInt 6))
     [SAssign [(EField (EVar "t") "CommittedLeaderEpoch"); (EVar "err")] [(EMethod (EVar "d") "Int32" [])];
      SIf [] (EBin Ne (EVar "err") ENil)
       [SReturn [(EVar "err")]]
       []]
     [];
   SAssign [(EField (EVar "t") "CommittedMetadata"); (EVar "err")] [(EMethod (EVar "d") "String" [])];
   SIf [] (EBin Ne (EVar "err") ENil)
     [SReturn [(EVar "err")]]
     [];
   SReturn [(EVar "err")]].
(** message/messages.gen.go:3500 *)
Definition go_OffsetCommitResponse_Size : func := mkFunc [("t", GNamed "OffsetCommitResponse"); ("version", GInt I16)] [GInt I32]
  [SVar "sz" (Some (GInt I32)) None;
   SIf [] (EBin Ge (EVar "version") (EInt 3))
     [SOp (EVar "sz") Add (EGlobal "sizeof.Int32")]
     [];
   SOp (EVar "sz") Add (EGlobal "sizeof.ArrayLength");
   SFor [SDefine ["i"] [(EBin Sub (ELen (EField (EVar "t") "Topics")) (EInt 1))]] (EBin Ge (EVar "i") (EInt 0)) [SOp (EVar "i") Sub (EInt 1)]
     [SOp (EVar "sz") Add (EMethod (EIndex (EField (EVar "t") "Topics") (EVar "i")) "Size" [(EVar "version")])];
   SReturn [(EVar "sz")]].
(** message/messages.gen.go:3513 *)
Definition go_OffsetCommitResponse_Encode : func := mkFunc [("t", GNamed "OffsetCommitResponse"); ("e", GPtr (GNamed "Encoder")); ("version", GInt I16)] []
  [SIf [] (EBin Ge (EVar "version") (EInt 3))
     [SExpr (EMethod (EVar "e") "PutInt32" [(EField (EVar "t") "ThrottleTimeMs")])]
     [];
   SDefine ["len1"] [(ELen (EField (EVar "t") "Topics"))];
   SExpr (EMethod (EVar "e") "PutArrayLength" [(EVar "len1")]);
   SFor [SDefine ["i"] [(EInt 0)]] (EBin Lt (EVar "i") (EVar "len1")) [SOp (EVar "i") Add (EInt 1)]
     [SExpr (EMethod (EIndex (EField (EVar "t") "Topics") (EVar "i")) "Encode" [(EVar "e"); (EVar "version")])]].
(** message/messages.gen.go:3526 *)
Definition go_OffsetCommitResponse_Decode : func := mkFunc [("t", GPtr (GNamed "OffsetCommitResponse")); ("d", GPtr (GNamed "Decoder")); ("version", GInt I16)] [GNamed "error"]
  [SVar "err" (Some (GNamed "error")) None;
   SIf [] (EBin Ge (EVar "version") (EInt 3))
     [SAssign [(EField (EVar "t") "ThrottleTimeMs"); (EVar "err")] [(EMethod (EVar "d") "Int32" [])];
      SIf [] (EBin Ne (EVar "err") ENil)
       [SReturn [(EVar "err")]]
       []]
     [];
   SIf [SDefine ["n"; "err"] [(EMethod (EVar "d") "ArrayLength" [])]] (EBin Ne (EVar "err") ENil)
     [SReturn [(EVar "err")]]
     [SIf [] (EBin Ge (EVar "n") (EInt 0))
       [SAssign [(EField (EVar "t") "Topics")] [(EMake (GSlice (GNamed "OffsetCommitResponseTopic8")) (EVar "n"))];
        SFor [SDefine ["i"] [(EInt 0)]] (EBin Lt (EVar "i") (EVar "n")) [SOp (EVar "i") Add (EInt 1)]
         [SVar "item" (Some (GNamed "OffsetCommitResponseTopic8")) None;
          SIf [SDefine ["err"] [(EMethod (EAddr (EVar "item")) "Decode" [(EVar "d"); (EVar "version")])]] (EBin Ne (EVar "err") ENil)
           [SReturn [(EVar "err")]]
           [];
          SAssign [(EIndex (EField (EVar "t") "Topics") (EVar "i"))] [(EVar "item")]]]
       []];
   SReturn [(EVar "err")]].
(** message/messages.gen.go:3556 *)
Definition go_OffsetCommitResponseTopic8_Size : func := mkFunc [("t", GNamed "OffsetCommitResponseTopic8"); ("version", GInt I16)] [GInt I32]
  [SVar "sz" (Some (GInt I32)) None;
   SOp (EVar "sz") Add (ECall "sizeof.String" [(EField (EVar "t") "Name")]);
   SOp (EVar "sz") Add (EGlobal "sizeof.ArrayLength");
   SFor [SDefine ["i"] [(EBin Sub (ELen (EField (EVar "t") "Partitions")) (EInt 1))]] (EBin Ge (EVar "i") (EInt 0)) [SOp (EVar "i") Sub (EInt 1)]
     [SOp (EVar "sz") Add (EMethod (EIndex (EField (EVar "t") "Partitions") (EVar "i")) "Size" [(EVar "version")])];
   SReturn [(EVar "sz")]].
(** message/messages.gen.go:3567 *)
Definition go_OffsetCommitResponseTopic8_Encode : func := mkFunc [("t", GNamed "OffsetCommitResponseTopic8"); ("e", GPtr (GNamed "Encoder")); ("version", GInt I16)] []
  [SExpr (EMethod (EVar "e") "PutString" [(EField (EVar "t") "Name")]);
   SDefine ["len1"] [(ELen (EField (EVar "t") "Partitions"))];
   SExpr (EMethod (EVar "e") "PutArrayLength" [(EVar "len1")]);
   SFor [SDefine ["i"] [(EInt 0)]] (EBin Lt (EVar "i") (EVar "len1")) [SOp (EVar "i") Add (EInt 1)]
     [SExpr (EMethod (EIndex (EField (EVar "t") "Partitions") (EVar "i")) "Encode" [(EVar "e"); (EVar "version")])]].
(** message/messages.gen.go:3578 *)
Definition go_OffsetCommitResponseTopic8_Decode : func := mkFunc [("t", GPtr (GNamed "OffsetCommitResponseTopic8")); ("d", GPtr (GNamed "Decoder")); ("version", GInt I16)] [GNamed "error"]
  [SVar "err" (Some (GNamed "error")) None;
   SAssign [(EField (EVar "t") "Name"); (EVar "err")] [(EMethod (EVar "d") "String" [])];
   SIf [] (EBin Ne (EVar "err") ENil)
     [SReturn [(EVar "err")]]
     [];
   SIf [SDefine ["n"; "err"] [(EMethod (EVar "d") "ArrayLength" [])]] (EBin Ne (EVar "err") ENil)
     [SReturn [(EVar "err")]]
     [SIf [] (EBin Ge (EVar "n") (EInt 0))
       [SAssign [(EField (EVar "t") "Partitions")] [(EMake (GSlice (GNamed "OffsetCommitResponsePartition8")) (EVar "n"))];
        SFor [SDefine ["i"] [(EInt 0)]] (EBin Lt (EVar "i") (EVar "n")) [SOp (EVar "i") Add (EInt 1)]
         [SVar "item" (Some (GNamed "OffsetCommitResponsePartition8")) None;
          SIf [SDefine ["err"] [(EMethod (EAddr (EVar "item")) "Decode" [(EVar "d"); (EVar "version")])]] (EBin Ne (EVar "err") ENil)
           [SReturn [(EVar "err")]]
           [];
          SAssign [(EIndex (EField (EVar "t") "Partitions") (EVar "i"))] [(EVar "item")]]]
       []];
   SReturn [(EVar "err")]].
(** message/messages.gen.go:3606 *)
Definition go_OffsetCommitResponsePartition8_Size : func := mkFunc [("t", GNamed "OffsetCommitResponsePartition8"); ("version", GInt I16)] [GInt I32]
  [SVar "sz" (Some (GInt I32)) None;
   SOp (EVar "sz") Add (EGlobal "sizeof.Int32");
   SOp (EVar "sz") Add (EGlobal "sizeof.Int16");
   SReturn [(EVar "sz")]].
(** message/messages.gen.go:3614 *)
Definition go_OffsetCommitResponsePartition8_Encode : func := mkFunc [("t", GNamed "OffsetCommitResponsePartition8"); ("e", GPtr (GNamed "Encoder")); ("version", GInt I16)] []
  [SExpr (EMethod (EVar "e") "PutInt32" [(EField (EVar "t") "PartitionIndex")]);
   SExpr (EMethod (EVar "e") "PutInt16" [(EField (EVar "t") "ErrorCode")])].
(** message/messages.gen.go:3620 *)
Definition go_OffsetCommitResponsePartition8_Decode : func := mkFunc [("t", GPtr (GNamed "OffsetCommitResponsePartition8")); ("d", GPtr (GNamed "Decoder")); ("version", GInt I16)] [GNamed "error"]
  [SVar "err" (Some (GNamed "error")) None;
   SAssign [(EField (EVar "t") "PartitionIndex"); (EVar "err")] [(EMethod (EVar "d") "Int32" [])];
   SIf [] (EBin Ne (EVar "err") ENil)
     [SReturn [(EVar "err")]]
     [];
   SAssign [(EField (EVar "t") "ErrorCode"); (EVar "err")] [(EMethod (EVar "d") "Int16" [])];
   SIf [] (EBin Ne (EVar "err") ENil)
     [SReturn [(EVar "err")]]
     [];
   SReturn [(EVar "err")]].
(** message/messages.gen.go:3640 *)
Definition go_OffsetFetchRequest_Size : func := mkFunc [("t", GNamed "OffsetFetchRequest"); ("version", GInt I16)] [GInt I32]
  [SVar "sz" (Some (GInt I32)) None;
   SOp (EVar "sz") Add (ECall "sizeof.String" [(EField (EVar "t") "GroupId")]);
   SOp (EVar "sz") Add (EGlobal "sizeof.ArrayLength");
   SFor [SDefine ["i"] [(EBin Sub (ELen (EField (EVar "t") "Topics")) (EInt 1))]] (EBin Ge (EVar "i") (EInt 0)) [SOp (EVar "i") Sub (EInt 1)]
     [SOp (EVar "sz") Add (EMethod (EIndex (EField (EVar "t") "Topics") (EVar "i")) "Size" [(EVar "version")])];
   SReturn [(EVar "sz")]].
(** message/messages.gen.go:3651 *)
Definition go_OffsetFetchRequest_Encode : func := mkFunc [("t", GNamed "OffsetFetchRequest"); ("e", GPtr (GNamed "Encoder")); ("version", GInt I16)] []
  [SExpr (EMethod (EVar "e") "PutString" [(EField (EVar "t") "GroupId")]);
   SDefine ["len1"] [(ELen (EField (EVar "t") "Topics"))];
   SExpr (EMethod (EVar "e") "PutArrayLength" [(EVar "len1")]);
   SFor [SDefine ["i"] [(EInt 0)]] (EBin Lt (EVar "i") (EVar "len1")) [SOp (EVar "i") Add (EInt 1)]
     [SExpr (EMethod (EIndex (EField (EVar "t") "Topics") (EVar "i")) "Encode" [(EVar "e"); (EVar "version")])]].
(** message/messages.gen.go:3662 *)
Definition go_OffsetFetchRequest_Decode : func := mkFunc [("t", GPtr (GNamed "OffsetFetchRequest")); ("d", GPtr (GNamed "Decoder")); ("version", GInt I16)] [GNamed "error"]
  [SVar "err" (Some (GNamed "error")) None;
   SAssign [(EField (EVar "t") "GroupId"); (EVar "err")] [(EMethod (EVar "d") "String" [])];
   SIf [] (EBin Ne (EVar "err") ENil)
     [SReturn [(EVar "err")]]
     [];
   SIf [SDefine ["n"; "err"] [(EMethod (EVar "d") "ArrayLength" [])]] (EBin Ne (EVar "err") ENil)
     [SReturn [(EVar "err")]]
     [SIf [] (EBin Ge (EVar "n") (EInt 0))
       [SAssign [(EField (EVar "t") "Topics")] [(EMake (GSlice (GNamed "OffsetFetchRequestTopic9")) (EVar "n"))];
        SFor [SDefine ["i"] [(EInt 0)]] (EBin Lt (EVar "i") (EVar "n")) [SOp (EVar "i") Add (EInt 1)]
         [SVar "item" (Some (GNamed "OffsetFetchRequestTopic9")) None;
          SIf [SDefine ["err"] [(EMethod (EAddr (EVar "item")) "Decode" [(EVar "d"); (EVar "version")])]] (EBin Ne (EVar "err") ENil)
           [SReturn [(EVar "err")]]
           [];
          SAssign [(EIndex (EField (EVar "t") "Topics") (EVar "i"))] [(EVar "item")]]]
       []];
   SReturn [(EVar "err")]].
(** message/messages.gen.go:3690 *)
Definition go_OffsetFetchRequestTopic9_Size : func := mkFunc [("t", GNamed "OffsetFetchRequestTopic9"); ("version", GInt I16)] [GInt I32]
  [SVar "sz" (Some (GInt I32)) None;
   SOp (EVar "sz") Add (ECall "sizeof.String" [(EField (EVar "t") "Name")]);
   SOp (EVar "sz") Add (ECall "sizeof.Int32Array" [(EField (EVar "t") "PartitionIndexes")]);
   SReturn [(EVar "sz")]].
(** message/messages.gen.go:3698 *)
Definition go_OffsetFetchRequestTopic9_Encode : func := mkFunc [("t", GNamed "OffsetFetchRequestTopic9"); ("e", GPtr (GNamed "Encoder")); ("version", GInt I16)] []
  [SExpr (EMethod (EVar "e") "PutString" [(EField (EVar "t") "Name")]);
   SExpr (EMethod (EVar "e") "PutInt32Array" [(EField (EVar "t") "PartitionIndexes")])].
(** message/messages.gen.go:3704 *)
Definition go_OffsetFetchRequestTopic9_Decode : func := mkFunc [("t", GPtr (GNamed "OffsetFetchRequestTopic9")); ("d", GPtr (GNamed "Decoder")); ("version", GInt I16)] [GNamed "error"]
  [SVar "err" (Some (GNamed "error")) None;
   SAssign [(EField (EVar "t") "Name"); (EVar "err")] [(EMethod (EVar "d") "String" [])];
   SIf [] (EBin Ne (EVar "err") ENil)
     [SReturn [(EVar "err")]]
     [];
   SAssign [(EField (EVar "t") "PartitionIndexes"); (EVar "err")] [(EMethod (EVar "d") "Int32Array" [])];
   SIf [] (EBin Ne (EVar "err") ENil)
     [SReturn [(EVar "err")]]
     [];
   SReturn [(EVar "err")]].
(** message/messages.gen.go:3725 *)
Definition go_OffsetFetchResponse_Size : func := mkFunc [("t", GNamed "OffsetFetchResponse"); ("version", GInt I16)] [GInt I32]
  [SVar "sz" (Some (GInt I32)) None;
   SIf [] (EBin Ge (EVar "version") (EInt 3))
     [SOp (EVar "sz") Add (EGlobal "sizeof.Int32")]
     [];
   SOp (EVar "sz") Add (EGlobal "sizeof.ArrayLength");
   SFor [SDefine ["i"] [(EBin Sub (ELen (EField (EVar "t") "Topics")) (EInt 1))]] (EBin Ge (EVar "i") (EInt 0)) [SOp (EVar "i") Sub (EInt 1)]
     [SOp (EVar "sz") Add (EMethod (EIndex (EField (EVar "t") "Topics") (EVar "i")) "Size" [(EVar "version")])];
   SIf [] (EBin Ge (EVar "version") (EInt 2))
     [SOp (EVar "sz") Add (EGlobal "sizeof.Int16")]
     [];
   SReturn [(EVar "sz")]].
(** message/messages.gen.go:3741 *)
Definition go_OffsetFetchResponse_Encode : func := mkFunc [("t", GNamed "OffsetFetchResponse"); ("e", GPtr (GNamed "Encoder")); ("version", GInt I16)] []
  [SIf [] (EBin Ge (EVar "version") (EInt 3))
     [SExpr (EMethod (EVar "e") "PutInt32" [(EField (EVar "t") "ThrottleTimeMs")])]
     [];
   SDefine ["len1"] [(ELen (EField (EVar "t") "Topics"))];
   SExpr (EMethod (EVar "e") "PutArrayLength" [(EVar "len1")]);
   SFor [SDefine ["i"] [(EInt 0)]] (EBin Lt (EVar "i") (EVar "len1")) [SOp (EVar "i") Add (EInt 1)]
     [SExpr (EMethod (EIndex (EField (EVar "t") "Topics") (EVar "i")) "Encode" [(EVar "e"); (EVar "version")])];
   SIf [] (EBin Ge (EVar "version") (EInt 2))
     [SExpr (EMethod (EVar "e") "PutInt16" [(EField (EVar "t") "ErrorCode")])]
     []].
(** message/messages.gen.go:3757 *)
Definition go_OffsetFetchResponse_Decode : func := mkFunc [("t", GPtr (GNamed "OffsetFetchResponse")); ("d", GPtr (GNamed "Decoder")); ("version", GInt I16)] [GNamed "error"]
  [SVar "err" (Some (GNamed "error")) None;
   SIf [] (EBin Ge (EVar "version") (EInt 3))
     [SAssign [(EField (EVar "t") "ThrottleTimeMs"); (EVar "err")] [(EMethod (EVar "d") "Int32" [])];
      SIf [] (EBin Ne (EVar "err") ENil)
       [SReturn [(EVar "err")]]
       []]
     [];
   SIf [SDefine ["n"; "err"] [(EMethod (EVar "d") "ArrayLength" [])]] (EBin Ne (EVar "err") ENil)
     [SReturn [(EVar "err")]]
     [SIf [] (EBin Ge (EVar "n") (EInt 0))
       [SAssign [(EField (EVar "t") "Topics")] [(EMake (GSlice (GNamed "OffsetFetchResponseTopic9")) (EVar "n"))];
        SFor [SDefine ["i"] [(EInt 0)]] (EBin Lt (EVar "i") (EVar "n")) [SOp (EVar "i") Add (EInt 1)]
         [SVar "item" (Some (GNamed "OffsetFetchResponseTopic9")) None;
          SIf [SDefine ["err"] [(EMethod (EAddr (EVar "item")) "Decode" [(EVar "d"); (EVar "version")])]] (EBin Ne (EVar "err") ENil)
           [SReturn [(EVar "err")]]
           [];
          SAssign [(EIndex (EField (EVar "t") "Topics") (EVar "i"))] [(EVar "item")]]]
       []];
   SIf [] (EBin Ge (EVar "version") (EInt 2))
     [SAssign [(EField (EVar "t") "ErrorCode"); (EVar "err")] [(EMethod (EVar "d") "Int16" [])];
      SIf [] (EBin Ne (EVar "err") ENil)
       [SReturn [(EVar "err")]]
       []]
     [];
   SReturn [(EVar "err")]].
(** message/messages.gen.go:3793 *)
Definition go_OffsetFetchResponseTopic9_Size : func := mkFunc [("t", GNamed "OffsetFetchResponseTopic9"); ("version", GInt I16)] [GInt I32]
  [SVar "sz" (Some (GInt I32)) None;
   SOp (EVar "sz") Add (ECall "sizeof.String" [(EField (EVar "t") "Name")]);
   SOp (EVar "sz") Add (EGlobal "sizeof.ArrayLength");
   SFor [SDefine ["i"] [(EBin Sub (ELen (EField (EVar "t") "Partitions")) (EInt 1))]] (EBin Ge (EVar "i") (EInt 0)) [SOp (EVar "i") Sub (EInt 1)]
     [SOp (EVar "sz") Add (EMethod (EIndex (EField (EVar "t") "Partitions") (EVar "i")) "Size" [(EVar "version")])];
   SReturn [(EVar "sz")]].
(** message/messages.gen.go:3804 *)
Definition go_OffsetFetchResponseTopic9_Encode : func := mkFunc [("t", GNamed "OffsetFetchResponseTopic9"); ("e", GPtr (GNamed "Encoder")); ("version", GInt I16)] []
  [SExpr (EMethod (EVar "e") "PutString" [(EField (EVar "t") "Name")]);
   SDefine ["len1"] [(ELen (EField (EVar "t") "Partitions"))];
   SExpr (EMethod (EVar "e") "PutArrayLength" [(EVar "len1")]);
   SFor [SDefine ["i"] [(EInt 0)]] (EBin Lt (EVar "i") (EVar "len1")) [SOp (EVar "i") Add (EInt 1)]
     [SExpr (EMethod (EIndex (EField (EVar "t") "Partitions") (EVar "i")) "Encode" [(EVar "e"); (EVar "version")])]].
(** message/messages.gen.go:3815 *)
Definition go_OffsetFetchResponseTopic9_Decode : func := mkFunc [("t", GPtr (GNamed "OffsetFetchResponseTopic9")); ("d", GPtr (GNamed "Decoder")); ("version", GInt I16)] [GNamed "error"]
  [SVar "err" (Some (GNamed "error")) None;
   SAssign [(EField (EVar "t") "Name"); (EVar "err")] [(EMethod (EVar "d") "String" [])];
   SIf [] (EBin Ne (EVar "err") ENil)
     [SReturn [(EVar "err")]]
     [];
   SIf [SDefine ["n"; "err"] [(EMethod (EVar "d") "ArrayLength" [])]] (EBin Ne (EVar "err") ENil)
     [SReturn [(EVar "err")]]
     [SIf [] (EBin Ge (EVar "n") (EInt 0))
       [SAssign [(EField (EVar "t") "Partitions")] [(EMake (GSlice (GNamed "OffsetFetchResponsePartition9")) (EVar "n"))];
        SFor [SDefine ["i"] [(EInt 0)]] (EBin Lt (EVar "i") (EVar "n")) [SOp (EVar "i") Add (EInt 1)]
         [SVar "item" (Some (GNamed "OffsetFetchResponsePartition9")) None;
          SIf [SDefine ["err"] [(EMethod (EAddr (EVar "item")) "Decode" [(EVar "d"); (EVar "version")])]] (EBin Ne (EVar "err") ENil)
           [SReturn [(EVar "err")]]
           [];
          SAssign [(EIndex (EField (EVar "t") "Partitions") (EVar "i"))] [(EVar "item")]]]
       []];
   SReturn [(EVar "err")]].
(** message/messages.gen.go:3846 *)
Definition go_OffsetFetchResponsePartition9_Size : func := mkFunc [("t", GNamed "OffsetFetchResponsePartition9"); ("version", GInt I16)] [GInt I32]
  [SVar "sz" (Some (GInt I32)) None;
   SOp (EVar "sz") Add (EGlobal "sizeof.Int32");
   SOp (EVar "sz") Add (EGlobal "sizeof.Int64");
   SIf [] (EBin Ge (EVar "version") (EInt 5))
     [SOp (EVar "sz") Add (EGlobal "sizeof.Int32")]
     [];
   SOp (EVar "sz") Add (ECall "sizeof.String" [(EField (EVar "t") "Metadata")]);
   SOp (EVar "sz") Add (EGlobal "sizeof.Int16");
   SReturn [(EVar "sz")]].
(** message/messages.gen.go:3859 *)
Definition go_OffsetFetchResponsePartition9_Encode : func := mkFunc [("t", GNamed "OffsetFetchResponsePartition9"); ("e", GPtr (GNamed "Encoder")); ("version", GInt I16)] []
  [SExpr (EMethod (EVar "e") "PutInt32" [(EField (EVar "t") "PartitionIndex")]);
   SExpr (EMethod (EVar "e") "PutInt64" [(EField (EVar "t") "CommittedOffset")]);
   SIf [] (EBin Ge (EVar "version") (EInt 5))
     [SExpr (EMethod (EVar "e") "PutInt32" [(EField (EVar "t") "CommittedLeaderEpoch")])]
     [];
   SExpr (EMethod (EVar "e") "PutString" [(EField (EVar "t") "Metadata")]);
   SExpr (EMethod (EVar "e") "PutInt16" [(EField (EVar "t") "ErrorCode")])].
(** message/messages.gen.go:3870 *)
Definition go_OffsetFetchResponsePartition9_Decode : func := mkFunc [("t", GPtr (GNamed "OffsetFetchResponsePartition9")); ("d", GPtr (GNamed "Decoder")); ("version", GInt I16)] [GNamed "error"]
  [SVar "err" (Some (GNamed "error")) None;
   SAssign [(EField (EVar "t") "PartitionIndex"); (EVar "err")] [(EMethod (EVar "d") "Int32" [])];
   SIf [] (EBin Ne (EVar "err") ENil)
     [SReturn [(EVar "err")]]
     [];
   SAssign [(EField (EVar "t") "CommittedOffset"); (EVar "err")] [(EMethod (EVar "d") "Int64" [])];
   SIf [] (EBin Ne (EVar "err") ENil)
     [SReturn [(EVar "err")]]
     [];
   SIf [] (EBin Ge (EVar "version") (EInt 5))
     [SAssign [(EField (EVar "t") "CommittedLeaderEpoch"); (EVar "err")] [(EMethod (EVar "d") "Int32" [])];
      SIf [] (EBin Ne (EVar "err") ENil)
       [SReturn [(EVar "err")]]
       []]
     [];
   SAssign [(EField (EVar "t") "Metadata"); (EVar "err")] [(EMethod (EVar "d") "String" [])];
   SIf [] (EBin Ne (EVar "err") ENil)
     [SReturn [(EVar "err")]]
     [];
   SAssign [(EField (EVar "t") "ErrorCode"); (EVar "err")] [(EMethod (EVar "d") "Int16" [])];
   SIf [] (EBin Ne (EVar "err") ENil)
     [SReturn [(EVar "err")]]
     [];
   SReturn [(EVar "err")]].
(** message/messages.gen.go:3904 *)
Definition go_FindCoordinatorRequest_Size : func := mkFunc [("t", GNamed "FindCoordinatorRequest"); ("version", GInt I16)] [GInt I32]
  [SVar "sz" (Some (GInt I32)) None;
   SOp (EVar "sz") Add (ECall "sizeof.String" [(EField (EVar "t") "Key")]);
   SIf [] (EBin Ge (EVar "version") (EInt 1))
     [SOp (EVar "sz") Add (EGlobal "sizeof.Int8")]
     [];
   SReturn [(EVar "sz")]].
(** message/messages.gen.go:3914 *)
Definition go_FindCoordinatorRequest_Encode : func := mkFunc [("t", GNamed "FindCoordinatorRequest"); ("e", GPtr (GNamed "Encoder")); ("version", GInt I16)] []
  [SExpr (EMethod (EVar "e") "PutString" [(EField (EVar "t") "Key")]);
   SIf [] (EBin Ge (EVar "version") (EInt 1))
     [SExpr (EMethod (EVar "e") "PutInt8" [(EField (EVar "t") "KeyType")])]
     []].
(** message/messages.gen.go:3922 *)
Definition go_FindCoordinatorRequest_Decode : func := mkFunc [("t", GPtr (GNamed "FindCoordinatorRequest")); ("d", GPtr (GNamed "Decoder")); ("version", GInt I16)] [GNamed "error"]
  [SVar "err" (Some (GNamed "error")) None;
   SAssign [(EField (EVar "t") "Key"); (EVar "err")] [(EMethod (EVar "d") "String" [])];
   SIf [] (EBin Ne (EVar "err") ENil)
     [SReturn [(EVar "err")]]
     [];
   SIf [] (EBin Ge (EVar "version") (EInt 1))
     [SAssign [(EField (EVar "t") "KeyType"); (EVar "err")] [(EMethod (EVar "d") "Int8" [])];
      SIf [] (EBin Ne (EVar "err") ENil)
       [SReturn [(EVar "err")]]
       []]
     [];
   SReturn [(EVar "err")]].
(** message/messages.gen.go:3948 *)
Definition go_FindCoordinatorResponse_Size : func := mkFunc [("t", GNamed "FindCoordinatorResponse"); ("version", GInt I16)] [GInt I32]
  [SVar "sz" (Some (GInt I32)) None;
   SIf [] (EBin Ge (EVar "version") (EInt 1))
     [SOp (EVar "sz") Add (EGlobal "sizeof.Int32")]
     [];
   SOp (EVar "sz") Add (EGlobal "sizeof.Int16");
   SIf [] (EBin Ge (EVar "version") (EInt 1))
     [SOp (EVar "sz") Add (ECall "sizeof.String" [(EField (EVar "t") "ErrorMessage")])]
     [];
   SOp (EVar "sz") Add (EGlobal "sizeof.Int32");
   SOp (EVar "sz") Add (ECall "sizeof.String" [(EField (EVar "t") "Host")]);
   SOp (EVar "sz") Add (EGlobal "sizeof.Int32");
   SReturn [(EVar "sz")]].
(** message/messages.gen.go:3964 *)
Definition go_FindCoordinatorResponse_Encode : func := mkFunc [("t", GNamed "FindCoordinatorResponse"); ("e", GPtr (GNamed "Encoder")); ("version", GInt I16)] []
  [SIf [] (EBin Ge (EVar "version") (EInt 1))
     [SExpr (EMethod (EVar "e") "PutInt32" [(EField (EVar "t") "ThrottleTimeMs")])]
     [];
   SExpr (EMethod (EVar "e") "PutInt16" [(EField (EVar "t") "ErrorCode")]);
   SIf [] (EBin Ge (EVar "version") (EInt 1))
     [SExpr (EMethod (EVar "e") "PutString" [(EField (EVar "t") "ErrorMessage")])]
     [];
   SExpr (EMethod (EVar "e") "PutInt32" [(EField (EVar "t") "NodeId")]);
   SExpr (EMethod (EVar "e") "PutString" [(EField (EVar "t") "Host")]);
   SExpr (EMethod (EVar "e") "PutInt32" [(EField (EVar "t") "Port")])].
(** message/messages.gen.go:3978 *)
Definition go_FindCoordinatorResponse_Decode : func := mkFunc [("t", GPtr (GNamed "FindCoordinatorResponse")); ("d", GPtr (GNamed "Decoder")); ("version", GInt I16)] [GNamed "error"]
  [SVar "err" (Some (GNamed "error")) None;
   SIf [] (EBin Ge (EVar "version") (EInt 1))
     [SAssign [(EField (EVar "t") "ThrottleTimeMs"); (EVar "err")] [(EMethod (EVar "d") "Int32" [])];
      SIf [] (EBin Ne (EVar "err") ENil)
       [SReturn [(EVar "err")]]
       []]
     [];
   SAssign [(EField (EVar "t") "ErrorCode"); (EVar "err")] [(EMethod (EVar "d") "Int16" [])];
   SIf [] (EBin Ne (EVar "err") ENil)
     [SReturn [(EVar "err")]]
     [];
   SIf [] (EBin Ge (EVar "version") (EInt 1))
     [SAssign [(EField (EVar "t") "ErrorMessage"); (EVar "err")] [(EMethod (EVar "d") "String" [])];
      SIf [] (EBin Ne (EVar "err") ENil)
       [SReturn [(EVar "err")]]
       []]
     [];
   SAssign [(EField (EVar "t") "NodeId"); (EVar "err")] [(EMethod (EVar "d") "Int32" [])];
   SIf [] (EBin Ne (EVar "err") ENil)
     [SReturn [(EVar "err")]]
     [];
   SAssign [(EField (EVar "t") "Host"); (EVar "err")] [(EMethod (EVar "d") "String" [])];
   SIf [] (EBin Ne (EVar "err") ENil)
     [SReturn [(EVar "err")]]
     [];
   SAssign [(EField (EVar "t") "Port"); (EVar "err")] [(EMethod (EVar "d") "Int32" [])];
   SIf [] (EBin Ne (EVar "err") ENil)
     [SReturn [(EVar "err")]]
     [];
   SReturn [(EVar "err")]].
(** message/messages.gen.go:4023 *)
Definition go_JoinGroupRequest_Size : func := mkFunc [("t", GNamed "JoinGroupRequest"); ("version", GInt I16)] [GInt I32]
  [SVar "sz" (Some (GInt I32)) None;
   SOp (EVar "sz") Add (ECall "sizeof.String" [(EField (EVar "t") "GroupId")]);
   SOp (EVar "sz") Add (EGlobal "sizeof.Int32");
   SIf [] (EBin Ge (EVar "version") (EInt 1))
     [SOp (EVar "sz") Add (EGlobal "sizeof.Int32")]
     [];
   SOp (EVar "sz") Add (ECall "sizeof.String" [(EField (EVar "t") "MemberId")]);
   SIf [] (EBin Ge (EVar "version") (EInt 5))
     [SOp (EVar "sz") Add (ECall "sizeof.String" [(EField (EVar "t") "GroupInstanceId")])]
     [];
   SOp (EVar "sz") Add (ECall "sizeof.String" [(EField (EVar "t") "ProtocolType")]);
   SOp (EVar "sz") Add (EGlobal "sizeof.ArrayLength");
   SFor [SDefine ["i"] [(EBin Sub (ELen (EField (EVar "t") "Protocols")) (EInt 1))]] (EBin Ge (EVar "i") (EInt 0)) [SOp (EVar "i") Sub (EInt 1)]
     [SOp (EVar "sz") Add (EMethod (EIndex (EField (EVar "t") "Protocols") (EVar "i")) "Size" [(EVar "version")])];
   SReturn [(EVar "sz")]].
(** message/messages.gen.go:4043 *)
Definition go_JoinGroupRequest_Encode : func := mkFunc [("t", GNamed "JoinGroupRequest"); ("e", GPtr (GNamed "Encoder")); ("version", GInt I16)] []
  [SExpr (EMethod (EVar "e") "PutString" [(EField (EVar "t") "GroupId")]);
   SExpr (EMethod (EVar "e") "PutInt32" [(EField (EVar "t") "SessionTimeoutMs")]);
   SIf [] (EBin Ge (EVar "version") (EInt 1))
     [SExpr (EMethod (EVar "e") "PutInt32" [(EField (EVar "t") "RebalanceTimeoutMs")])]
     [];
   SExpr (EMethod (EVar "e") "PutString" [(EField (EVar "t") "MemberId")]);
   SIf [] (EBin Ge (EVar "version") (EInt 5))
     [SExpr (EMethod (EVar "e") "PutString" [(EField (EVar "t") "GroupInstanceId")])]
     [];
   SExpr (EMethod (EVar "e") "PutString" [(EField (EVar "t") "ProtocolType")]);
   SDefine ["len6"] [(ELen (EField (EVar "t") "Protocols"))];
   SExpr (EMethod (EVar "e") "PutArrayLength" [(EVar "len6")]);
   SFor [SDefine ["i"] [(EInt 0)]] (EBin Lt (EVar "i") (EVar "len6")) [SOp (EVar "i") Add (EInt 1)]
     [SExpr (EMethod (EIndex (EField (EVar "t") "Protocols") (EVar "i")) "Encode" [(EVar "e"); (EVar "version")])]].
(** message/messages.gen.go:4063 *)
Definition go_JoinGroupRequest_Decode : func := mkFunc [("t", GPtr (GNamed "JoinGroupRequest")); ("d", GPtr (GNamed "Decoder")); ("version", GInt I16)] [GNamed "error"]
  [SVar "err" (Some (GNamed "error")) None;
   SAssign [(EField (EVar "t") "GroupId"); (EVar "err")] [(EMethod (EVar "d") "String" [])];
   SIf [] (EBin Ne (EVar "err") ENil)
     [SReturn [(EVar "err")]]
     [];
   SAssign [(EField (EVar "t") "SessionTimeoutMs"); (EVar "err")] [(EMethod (EVar "d") "Int32" [])];
   SIf [] (EBin Ne (EVar "err") ENil)
     [SReturn [(EVar "err")]]
     [];
   SIf [] (EBin Ge (EVar "version") (EInt 1))
     [SAssign [(EField (EVar "t") "RebalanceTimeoutMs"); (EVar "err")] [(EMethod (EVar "d") "Int32" [])];
      SIf [] (EBin Ne (EVar "err") ENil)
       [SReturn [(EVar "err")]]
       []]
     [];
   SAssign [(EField (EVar "t") "MemberId"); (EVar "err")] [(EMethod (EVar "d") "String" [])];
   SIf [] (EBin Ne (EVar "err") ENil)
     [SReturn [(EVar "err")]]
     [];
   SIf [] (EBin Ge (EVar "version") (EInt 5))
     [SAssign [(EField (EVar "t") "GroupInstanceId"); (EVar "err")] [(EMethod (EVar "d") "String" [])];
      SIf [] (EBin Ne (EVar "err") ENil)
       [SReturn [(EVar "err")]]
       []]
     [];
   SAssign [(EField (EVar "t") "ProtocolType"); (EVar "err")] [(EMethod (EVar "d") "String" [])];
   SIf [] (EBin Ne (EVar "err") ENil)
     [SReturn [(EVar "err")]]
     [];
   SIf [SDefine ["n"; "err"] [(EMethod (EVar "d") "ArrayLength" [])]] (EBin Ne (EVar "err") ENil)
     [SReturn [(EVar "err")]]
     [SIf [] (EBin Ge (EVar "n") (EInt 0))
       [SAssign [(EField (EVar "t") "Protocols")] [(EMake (GSlice (GNamed "JoinGroupRequestProtocol11")) (EVar "n"))];
        SFor [SDefine ["i"] [(EInt 0)]] (EBin Lt (EVar "i") (EVar "n")) [SOp (EVar "i") Add (EInt 1)]
         [SVar "item" (Some (GNamed "JoinGroupRequestProtocol11")) None;
          SIf [SDefine ["err"] [(EMethod (EAddr (EVar "item")) "Decode" [(EVar "d"); (EVar "version")])]] (EBin Ne (EVar "err") ENil)
           [SReturn [(EVar "err")]]
           [];
          SAssign [(EIndex (EField (EVar "t") "Protocols") (EVar "i"))] [(EVar "item")]]]
       []];
   SReturn [(EVar "err")]].
(** message/messages.gen.go:4115 *)
Definition go_JoinGroupRequestProtocol11_Size : func := mkFunc [("t", GNamed "JoinGroupRequestProtocol11"); ("version", GInt I16)] [GInt I32]
  [SVar "sz" (Some (GInt I32)) None;
   SOp (EVar "sz") Add (ECall "sizeof.String" [(EField (EVar "t") "Name")]);
   SOp (EVar "sz") Add (ECall "sizeof.Bytes" [(EField (EVar "t") "Metadata")]);
   SReturn [(EVar "sz")]].
(** message/messages.gen.go:4123 *)
Definition go_JoinGroupRequestProtocol11_Encode : func := mkFunc [("t", GNamed "JoinGroupRequestProtocol11"); ("e", GPtr (GNamed "Encoder")); ("version", GInt I16)] []
  [SExpr (EMethod (EVar "e") "PutString" [(EField (EVar "t") "Name")]);
   SExpr (EMethod (EVar "e") "PutBytes" [(EField (EVar "t") "Metadata")])].
(** message/messages.gen.go:4129 *)
Definition go_JoinGroupRequestProtocol11_Decode : func := mkFunc [("t", GPtr (GNamed "JoinGroupRequestProtocol11")); ("d", GPtr (GNamed "Decoder")); ("version", GInt I16)] [GNamed "error"]
  [SVar "err" (Some (GNamed "error")) None;
   SAssign [(EField (EVar "t") "Name"); (EVar "err")] [(EMethod (EVar "d") "String" [])];
   SIf [] (EBin Ne (EVar "err") ENil)
     [SReturn [(EVar "err")]]
     [];
   SAssign [(EField (EVar "t") "Metadata"); (EVar "err")] [(EMethod (EVar "d") "Bytes" [])];
   SIf [] (EBin Ne (EVar "err") ENil)
     [SReturn [(EVar "err")]]
     [];
   SReturn [(EVar "err")]].
(** message/messages.gen.go:4154 *)
Definition go_JoinGroupResponse_Size : func := mkFunc [("t", GNamed "JoinGroupResponse"); ("version", GInt I16)] [GInt I32]
  [SVar "sz" (Some (GInt I32)) None;
   SIf [] (EBin Ge (EVar "version") (EInt 2))
     [SOp (EVar "sz") Add (EGlobal "sizeof.Int32")]
     [];
   SOp (EVar "sz") Add (EGlobal "sizeof.Int16");
   SOp (EVar "sz") Add (EGlobal "sizeof.Int32");
   SOp (EVar "sz") Add (ECall "sizeof.String" [(EField (EVar "t") "ProtocolName")]);
   SOp (EVar "sz") Add (ECall "sizeof.String" [(EField (EVar "t") "Leader")]);
   SOp (EVar "sz") Add (ECall "sizeof.String" [(EField (EVar "t") "MemberId")]);
   SOp (EVar "sz") Add (EGlobal "sizeof.ArrayLength");
   SFor [SDefine ["i"] [(EBin Sub (ELen (EField (EVar "t") "Members")) (EInt 1))]] (EBin Ge (EVar "i") (EInt 0)) [SOp (EVar "i") Sub (EInt 1)]
     [SOp (EVar "sz") Add (EMethod (EIndex (EField (EVar "t") "Members") (EVar "i")) "Size" [(EVar "version")])];
   SReturn [(EVar "sz")]].
(** message/messages.gen.go:4172 *)
Definition go_JoinGroupResponse_Encode : func := mkFunc [("t", GNamed "JoinGroupResponse"); ("e", GPtr (GNamed "Encoder")); ("version", GInt I16)] []
  [SIf [] (EBin Ge (EVar "version") (EInt 2))
     [SExpr (EMethod (EVar "e") "PutInt32" [(EField (EVar "t") "ThrottleTimeMs")])]
     [];
   SExpr (EMethod (EVar "e") "PutInt16" [(EField (EVar "t") "ErrorCode")]);
   SExpr (EMethod (EVar "e") "PutInt32" [(EField (EVar "t") "GenerationId")]);
   SExpr (EMethod (EVar "e") "PutString" [(EField (EVar "t") "ProtocolName")]);
   SExpr (EMethod (EVar "e") "PutString" [(EField (EVar "t") "Leader")]);
   SExpr (EMethod (EVar "e") "PutString" [(EField (EVar "t") "MemberId")]);
   SDefine ["len6"] [(ELen (EField (EVar "t") "Members"))];
   SExpr (EMethod (EVar "e") "PutArrayLength" [(EVar "len6")]);
   SFor [SDefine ["i"] [(EInt 0)]] (EBin Lt (EVar "i") (EVar "len6")) [SOp (EVar "i") Add (EInt 1)]
     [SExpr (EMethod (EIndex (EField (EVar "t") "Members") (EVar "i")) "Encode" [(EVar "e"); (EVar "version")])]].
(** message/messages.gen.go:4190 *)
Definition go_JoinGroupResponse_Decode : func := mkFunc [("t", GPtr (GNamed "JoinGroupResponse")); ("d", GPtr (GNamed "Decoder")); ("version", GInt I16)] [GNamed "error"]
  [SVar "err" (Some (GNamed "error")) None;
   SIf [] (EBin Ge (EVar "version") (EInt 2))
     [SAssign [(EField (EVar "t") "ThrottleTimeMs"); (EVar "err")] [(EMethod (EVar "d") "Int32" [])];
      SIf [] (EBin Ne (EVar "err") ENil)
       [SReturn [(EVar "err")]]
       []]
     [];
   SAssign [(EField (EVar "t") "ErrorCode"); (EVar "err")] [(EMethod (EVar "d") "Int16" [])];
   SIf [] (EBin Ne (EVar "err") ENil)
     [SReturn [(EVar "err")]]
     [];
   SAssign [(EField (EVar "t") "GenerationId"); (EVar "err")] [(EMethod (EVar "d") "Int32" [])];
   SIf [] (EBin Ne (EVar "err") ENil)
     [SReturn [(EVar "err")]]
     [];
   SAssign [(EField (EVar "t") "ProtocolName"); (EVar "err")] [(EMethod (EVar "d") "String" [])];
   SIf [] (EBin Ne (EVar "err") ENil)
     [SReturn [(EVar "err")]]
     [];
   SAssign [(EField (EVar "t") "Leader"); (EVar "err")] [(EMethod (EVar "d") "String" [])];
   SIf [] (EBin Ne (EVar "err") ENil)
     [SReturn [(EVar "err")]]
     [];
   SAssign [(EField (EVar "t") "MemberId"); (EVar "err")] [(EMethod (EVar "d") "String" [])];
   SIf [] (EBin Ne (EVar "err") ENil)
     [SReturn [(EVar "err")]]
     [];
   SIf [SDefine ["n"; "err"] [(EMethod (EVar "d") "ArrayLength" [])]] (EBin Ne (EVar "err") ENil)
     [SReturn [(EVar "err")]]
     [SIf [] (EBin Ge (EVar "n") (EInt 0))
       [SAssign [(EField (EVar "t") "Members")] [(EMake (GSlice (GNamed "JoinGroupResponseMember11")) (EVar "n"))];
        SFor [SDefine ["i"] [(EInt 0)]] (EBin Lt (EVar "i") (EVar "n")) [SOp (EVar "i") Add (EInt 1)]
         [SVar "item" (Some (GNamed "JoinGroupResponseMember11")) None;
          SIf [SDefine ["err"] [(EMethod (EAddr (EVar "item")) "Decode" [(EVar "d"); (EVar "version")])]] (EBin Ne (EVar "err") ENil)
           [SReturn [(EVar "err")]]
           [];
          SAssign [(EIndex (EField (EVar "t") "Members") (EVar "i"))] [(EVar "item")]]]
       []];
   SReturn [(EVar "err")]].
(** message/messages.gen.go:4241 *)
Definition go_JoinGroupResponseMember11_Size : func := mkFunc [("t", GNamed "JoinGroupResponseMember11"); ("version", GInt I16)] [GInt I32]
  [SVar "sz" (Some (GInt I32)) None;
   SOp (EVar "sz") Add (ECall "sizeof.String" [(EField (EVar "t") "MemberId")]);
   SIf [] (EBin Ge (EVar "version") (EInt 5))
     [SOp (EVar "sz") Add (ECall "sizeof.String" [(EField (EVar "t") "GroupInstanceId")])]
     [];
   SOp (EVar "sz") Add (ECall "sizeof.Bytes" [(EField (EVar "t") "Metadata")]);
   SReturn [(EVar "sz")]].
(** message/messages.gen.go:4252 *)
Definition go_JoinGroupResponseMember11_Encode : func := mkFunc [("t", GNamed "JoinGroupResponseMember11"); ("e", GPtr (GNamed "Encoder")); ("version", GInt I16)] []
  [SExpr (EMethod (EVar "e") "PutString" [(EField (EVar "t") "MemberId")]);
   SIf [] (EBin Ge (EVar "version") (EInt 5))
     [SExpr (EMethod (EVar "e") "PutString" [(EField (EVar "t") "GroupInstanceId")])]
     [];
   SExpr (EMethod (EVar "e") "PutBytes" [(EField (EVar "t") "Metadata")])].
(** message/messages.gen.go:4261 *)
Definition go_JoinGroupResponseMember11_Decode : func := mkFunc [("t", GPtr (GNamed "JoinGroupResponseMember11")); ("d", GPtr (GNamed "Decoder")); ("version", GInt I16)] [GNamed "error"]
  [SVar "err" (Some (GNamed "error")) None;
   SAssign [(EField (EVar "t") "MemberId"); (EVar "err")] [(EMethod (EVar "d") "String" [])];
   SIf [] (EBin Ne (EVar "err") ENil)
     [SReturn [(EVar "err")]]
     [];
   SIf [] (EBin Ge (EVar "version") (EInt 5))
     [SAssign [(EField (EVar "t") "GroupInstanceId"); (EVar "err")] [(EMethod (EVar "d") "String" [])];
      SIf [] (EBin Ne (EVar "err") ENil)
       [SReturn [(EVar "err")]]
       []]
     [];
   SAssign [(EField (EVar "t") "Metadata"); (EVar "err")] [(EMethod (EVar "d") "Bytes" [])];
   SIf [] (EBin Ne (EVar "err") ENil)
     [SReturn [(EVar "err")]]
     [];
   SReturn [(EVar "err")]].
(** message/messages.gen.go:4289 *)
Definition go_HeartbeatRequest_Size : func := mkFunc [("t", GNamed "HeartbeatRequest"); ("version", GInt I16)] [GInt I32]
  [SVar "sz" (Some (GInt I32)) None;
   SOp (EVar "sz") Add (ECall "sizeof.String" [(EField (EVar "t") "GroupId")]);
   SOp (EVar "sz") Add (EGlobal "sizeof.Int32");
   SOp (EVar "sz") Add (ECall "sizeof.String" [(EField (EVar "t") "MemberId")]);
   SIf [] (EBin Ge (EVar "version") (EInt 3))
     [SOp (EVar "sz") Add (ECall "sizeof.String" [(EField (EVar "t") "GroupInstanceId")])]
     [];
   SReturn [(EVar "sz")]].
(** message/messages.gen.go:4301 *)
Definition go_HeartbeatRequest_Encode : func := mkFunc [("t", GNamed "HeartbeatRequest"); ("e", GPtr (GNamed "Encoder")); ("version", GInt I16)] []
  [SExpr (EMethod (EVar "e") "PutString" [(EField (EVar "t") "GroupId")]);
   SExpr (EMethod (EVar "e") "PutInt32" [(EField (EVar "t") "GenerationId")]);
   SExpr (EMethod (EVar "e") "PutString" [(EField (EVar "t") "MemberId")]);
   SIf [] (EBin Ge (EVar "version") (EInt 3))
     [SExpr (EMethod (EVar "e") "PutString" [(EField (EVar "t") "GroupInstanceId")])]
     []].
(** message/messages.gen.go:4311 *)
Definition go_HeartbeatRequest_Decode : func := mkFunc [("t", GPtr (GNamed "HeartbeatRequest")); ("d", GPtr (GNamed "Decoder")); ("version", GInt I16)] [GNamed "error"]
  [SVar "err" (Some (GNamed "error")) None;
   SAssign [(EField (EVar "t") "GroupId"); (EVar "err")] [(EMethod (EVar "d") "String" [])];
   SIf [] (EBin Ne (EVar "err") ENil)
     [SReturn [(EVar "err")]]
     [];
   SAssign [(EField (EVar "t") "GenerationId"); (EVar "err")] [(EMethod (EVar "d") "Int32" [])];
   SIf [] (EBin Ne (EVar "err") ENil)
     [SReturn [(EVar "err")]]
     [];
   SAssign [(EField (EVar "t") "MemberId"); (EVar "err")] [(EMethod (EVar "d") "String" [])];
   SIf [] (EBin Ne (EVar "err") ENil)
     [SReturn [(EVar "err")]]
     [];
   SIf [] (EBin Ge (EVar "version") (EInt 3))
     [SAssign [(EField (EVar "t") "GroupInstanceId"); (EVar "err")] [(EMethod (EVar "d") "String" [])];
      SIf [] (EBin Ne (EVar "err") ENil)
       [SReturn [(EVar "err")]]
       []]
     [];
   SReturn [(EVar "err")]].
(** message/messages.gen.go:4341 *)
Definition go_HeartbeatResponse_Size : func := mkFunc [("t", GNamed "HeartbeatResponse"); ("version", GInt I16)] [GInt I32]
  [SVar "sz" (Some (GInt I32)) None;
   SIf [] (EBin Ge (EVar "version") (EInt 1))
     [SOp (EVar "sz") Add (EGlobal "sizeof.Int32")]
     [];
   SOp (EVar "sz") Add (EGlobal "sizeof.Int16");
   SReturn [(EVar "sz")]].
(** message/messages.gen.go:4351 *)
Definition go_HeartbeatResponse_Encode : func := mkFunc [("t", GNamed "HeartbeatResponse"); ("e", GPtr (GNamed "Encoder")); ("version", GInt I16)] []
  [SIf [] (EBin Ge (EVar "version") (EInt 1))
     [SExpr (EMethod (EVar "e") "PutInt32" [(EField (EVar "t") "ThrottleTimeMs")])]
     [];
   SExpr (EMethod (EVar "e") "PutInt16" [(EField (EVar "t") "ErrorCode")])].
(** message/messages.gen.go:4359 *)
Definition go_HeartbeatResponse_Decode : func := mkFunc [("t", GPtr (GNamed "HeartbeatResponse")); ("d", GPtr (GNamed "Decoder")); ("version", GInt I16)] [GNamed "error"]
  [SVar "err" (Some (GNamed "error")) None;
   SIf [] (EBin Ge (EVar "version") (EInt 1))
     [SAssign [(EField (EVar "t") "ThrottleTimeMs"); (EVar "err")] [(EMethod (EVar "d") "Int32" [])];
      SIf [] (EBin Ne (EVar "err") ENil)
       [SReturn [(EVar "err")]]
       []]
     [];
   SAssign [(EField (EVar "t") "ErrorCode"); (EVar "err")] [(EMethod (EVar "d") "Int16" [])];
   SIf [] (EBin Ne (EVar "err") ENil)
     [SReturn [(EVar "err")]]
     [];
   SReturn [(EVar "err")]].
(** message/messages.gen.go:4382 *)
Definition go_LeaveGroupRequest_Size : func := mkFunc [("t", GNamed "LeaveGroupRequest"); ("version", GInt I16)] [GInt I32]
  [SVar "sz" (Some (GInt I32)) None;
   SOp (EVar "sz") Add (ECall "sizeof.String" [(EField (EVar "t") "GroupId")]);
   SIf [] (EBin And (EBin Ge (EVar "version") (EInt 0)) (EBin Le (EVar "version") (EInt 2)))
     [SOp (EVar "sz") Add (ECall "sizeof.String" [(EField (EVar "t") "MemberId")])]
     [];
   SIf [] (EBin Ge (EVar "version") (EInt 3))
     [SOp (EVar "sz") Add (EGlobal "sizeof.ArrayLength");
      SFor [SDefine ["i"] [(EBin Sub (ELen (EField (EVar "t") "Members")) (EInt 1))]] (EBin Ge (EVar "i") (EInt 0)) [SOp (EVar "i") Sub (EInt 1)]
       [SOp (EVar "sz") Add (EMethod (EIndex (EField (EVar "t") "Members") (EVar "i")) "Size" [(EVar "version")])]]
     [];
   SReturn [(EVar "sz")]].
(** message/messages.gen.go:4398 *)
Definition go_LeaveGroupRequest_Encode : func := mkFunc [("t", GNamed "LeaveGroupRequest"); ("e", GPtr (GNamed "Encoder")); ("version", GInt I16)] []
  [SExpr (EMethod (EVar "e") "PutString" [(EField (EVar "t") "GroupId")]);
   SIf [] (EBin And (EBin Ge (EVar "version") (EInt 0)) (EBin Le (EVar "version") (EInt 2)))
     [SExpr (EMethod (EVar "e") "PutString" [(EField (EVar "t") "MemberId")])]
     [];
   SIf [] (EBin Ge (EVar "version") (EInt 3))
     [SDefine ["len2"] [(ELen (EField (EVar "t") "Members"))];
      SExpr (EMethod (EVar "e") "PutArrayLength" [(EVar "len2")]);
      SFor [SDefine ["i"] [(EInt 0)]] (EBin Lt (EVar "i") (EVar "len2")) [SOp (EVar "i") Add (EInt 1)]
       [SExpr (EMethod (EIndex (EField (EVar "t") "Members") (EVar "i")) "Encode" [(EVar "e"); (EVar "version")])]]
     []].
(** message/messages.gen.go:4414 *)
Definition go_LeaveGroupRequest_Decode : func := mkFunc [("t", GPtr (GNamed "LeaveGroupRequest")); ("d", GPtr (GNamed "Decoder")); ("version", GInt I16)] [GNamed "error"]
  [SVar "err" (Some (GNamed "error")) None;
   SAssign [(EField (EVar "t") "GroupId"); (EVar "err")] [(EMethod (EVar "d") "String" [])];
   SIf [] (EBin Ne (EVar "err") ENil)
     [SReturn [(EVar "err")]]
     [];
   SIf [] (EBin And (EBin Ge (EVar "version") (EInt 0)) (EBin Le (EVar "version") (EInt 2)))
     [SAssign [(EField (EVar "t") "MemberId"); (EVar "err")] [(EMethod (EVar "d") "String" [])];
      SIf [] (EBin Ne (EVar "err") ENil)
       [SReturn [(EVar "err")]]
       []]
     [];
   SIf [] (EBin Ge (EVar "version") (EInt 3))
     [SIf [SDefine ["n"; "err"] [(EMethod (EVar "d") "ArrayLength" [])]] (EBin Ne (EVar "err") ENil)
       [SReturn [(EVar "err")]]
       [SIf [] (EBin Ge (EVar "n") (EInt 0))
         [SAssign [(EField (EVar "t") "Members")] [(EMake (GSlice (GNamed "MemberIdentity13")) (EVar "n"))];
          SFor [SDefine ["i"] [(EInt 0)]] (EBin Lt (EVar "i") (EVar "n")) [SOp (EVar "i") Add (EInt 1)]
           [SVar "item" (Some (GNamed "MemberIdentity13")) None;
            SIf [SDefine ["err"] [(EMethod (EAddr (EVar "item")) "Decode" [(EVar "d"); (EVar "version")])]] (EBin Ne (EVar "err") ENil)
             [SReturn [(EVar "err")]]
             [];
            SAssign [(EIndex (EField (EVar "t") "Members") (EVar "i"))] [(EVar "item")]]]
         []]]
     [];
   SReturn [(EVar "err")]].
(** message/messages.gen.go:4450 *)
Definition go_MemberIdentity13_Size : func := mkFunc [("t", GNamed "MemberIdentity13"); ("version", GInt I16)] [GInt I32]
  [SVar "sz" (Some (GInt I32)) None;
   SIf [] (EBin Ge (EVar "version") (EInt 3))
     [SOp (EVar "sz") Add (ECall "sizeof.String" [(EField (EVar "t") "MemberId")])]
     [];
   SIf [] (EBin Ge (EVar "version") (EInt 3))
     [SOp (EVar "sz") Add (ECall "sizeof.String" [(EField (EVar "t") "GroupInstanceId")])]
     [];
   SReturn [(EVar "sz")]].
(** message/messages.gen.go:4462 *)
Definition go_MemberIdentity13_Encode : func := mkFunc [("t", GNamed "MemberIdentity13"); ("e", GPtr (GNamed "Encoder")); ("version", GInt I16)] []
  [SIf [] (EBin Ge (EVar "version") (EInt 3))
     [SExpr (EMethod (EVar "e") "PutString" [(EField (EVar "t") "MemberId")])]
     [];
   SIf [] (EBin Ge (EVar "version") (EInt 3))
     [SExpr (EMethod (EVar "e") "PutString" [(EField (EVar "t") "GroupInstanceId")])]
     []].
(** message/messages.gen.go:4472 *)
Definition go_MemberIdentity13_Decode : func := mkFunc [("t", GPtr (GNamed "MemberIdentity13")); ("d", GPtr (GNamed "Decoder")); ("version", GInt I16)] [GNamed "error"]
  [SVar "err" (Some (GNamed "error")) None;
   SIf [] (EBin Ge (EVar "version") (EInt 3))
     [SAssign [(EField (EVar "t") "MemberId"); (EVar "err")] [(EMethod (EVar "d") "String" [])];
      SIf [] (EBin Ne (EVar "err") ENil)
       [SReturn [(EVar "err")]]
       []]
     [];
   SIf [] (EBin Ge (EVar "version") (EInt 3))
     [SAssign [(EField (EVar "t") "GroupInstanceId"); (EVar "err")] [(EMethod (EVar "d") "String" [])];
      SIf [] (EBin Ne (EVar "err") ENil)
       [SReturn [(EVar "err")]]
       []]
     [];
   SReturn [(EVar "err")]].
(** message/messages.gen.go:4497 *)
Definition go_LeaveGroupResponse_Size : func := mkFunc [("t", GNamed "LeaveGroupResponse"); ("version", GInt I16)] [GInt I32]
  [SVar "sz" (Some (GInt I32)) None;
   SIf [] (EBin Ge (EVar "version") (EInt 1))
     [SOp (EVar "sz") Add (EGlobal "sizeof.Int32")]
     [];
   SOp (EVar "sz") Add (EGlobal "sizeof.Int16");
   SIf [] (EBin Ge (EVar "version") (EInt 3))
     [SOp (EVar "sz") Add (EGlobal "sizeof.ArrayLength");
      SFor [SDefine ["i"] [(EBin Sub (ELen (EField (EVar "t") "Members")) (EInt 1))]] (EBin Ge (EVar "i") (EInt 0)) [SOp (EVar "i") Sub (EInt 1)]
       [SOp (EVar "sz") Add (EMethod (EIndex (EField (EVar "t") "Members") (EVar "i")) "Size" [(EVar "version")])]]
     [];
   SReturn [(EVar "sz")]].
(** message/messages.gen.go:4513 *)
Definition go_LeaveGroupResponse_Encode : func := mkFunc [("t", GNamed "LeaveGroupResponse"); ("e", GPtr (GNamed "Encoder")); ("version", GInt I16)] []
  [SIf [] (EBin Ge (EVar "version") (EInt 1))
     [SExpr (EMethod (EVar "e") "PutInt32" [(EField (EVar "t") "ThrottleTimeMs")])]
     [];
   SExpr (EMethod (EVar "e") "PutInt16" [(EField (EVar "t") "ErrorCode")]);
   SIf [] (EBin Ge (EVar "version") (EInt 3))
     [SDefine ["len2"] [(ELen (EField (EVar "t") "Members"))];
      SExpr (EMethod (EVar "e") "PutArrayLength" [(EVar "len2")]);
      SFor [SDefine ["i"] [(EInt 0)]] (EBin Lt (EVar "i") (EVar "len2")) [SOp (EVar "i") Add (EInt 1)]
       [SExpr (EMethod (EIndex (EField (EVar "t") "Members") (EVar "i")) "Encode" [(EVar "e"); (EVar "version")])]]
     []].
(** message/messages.gen.go:4529 *)
Definition go_LeaveGroupResponse_Decode : func := mkFunc [("t", GPtr (GNamed "LeaveGroupResponse")); ("d", GPtr (GNamed "Decoder")); ("version", GInt I16)] [GNamed "error"]
  [SVar "err" (Some (GNamed "error")) None;
   SIf [] (EBin Ge (EVar "version") (EInt 1))
     [SAssign [(EField (EVar "t") "ThrottleTimeMs"); (EVar "err")] [(EMethod (EVar "d") "Int32" [])];
      SIf [] (EBin Ne (EVar "err") ENil)
       [SReturn [(EVar "err")]]
       []]
     [];
   SAssign [(EField (EVar "t") "ErrorCode"); (EVar "err")] [(EMethod (EVar "d") "Int16" [])];
   SIf [] (EBin Ne (EVar "err") ENil)
     [SReturn [(EVar "err")]]
     [];
   SIf [] (EBin Ge (EVar "version") (EInt 3))
     [SIf [SDefine ["n"; "err"] [(EMethod (EVar "d") "ArrayLength" [])]] (EBin Ne (EVar "err") ENil)
       [SReturn [(EVar "err")]]
       [SIf [] (EBin Ge (EVar "n") (EInt 0))
         [SAssign [(EField (EVar "t") "Members")] [(EMake (GSlice (GNamed "MemberResponse13")) (EVar "n"))];
          SFor [SDefine ["i"] [(EInt 0)]] (EBin Lt (EVar "i") (EVar "n")) [SOp (EVar "i") Add (EInt 1)]
           [SVar "item" (Some (GNamed "MemberResponse13")) None;
            SIf [SDefine ["err"] [(EMethod (EAddr (EVar "item")) "Decode" [(EVar "d"); (EVar "version")])]] (EBin Ne (EVar "err") ENil)
             [SReturn [(EVar "err")]]
             [];
            SAssign [(EIndex (EField (EVar "t") "Members") (EVar "i"))] [(EVar "item")]]]
         []]]
     [];
   SReturn [(EVar "err")]].
(** message/messages.gen.go:4566 *)
Definition go_MemberResponse13_Size : func := mkFunc [("t", GNamed "MemberResponse13"); ("version", GInt I16)] [GInt I32]
  [SVar "sz" (Some (GInt I32)) None;
   SIf [] (EBin Ge (EVar "version") (EInt 3))
     [SOp (EVar "sz") Add (ECall "sizeof.String" [(EField (EVar "t") "MemberId")])]
     [];
   SIf [] (EBin Ge (EVar "version") (EInt 3))
     [SOp (EVar "sz") Add (ECall "sizeof.String" [(EField (EVar "t") "GroupInstanceId")])]
     [];
   SIf [] (EBin Ge (EVar "version") (EInt 3))
     [SOp (EVar "sz") Add (EGlobal "sizeof.Int16")]
     [];
   SReturn [(EVar "sz")]].
(** message/messages.gen.go:4581 *)
Definition go_MemberResponse13_Encode : func := mkFunc [("t", GNamed "MemberResponse13"); ("e", GPtr (GNamed "Encoder")); ("version", GInt I16)] []
  [SIf [] (EBin Ge (EVar "version") (EInt 3))
     [SExpr (EMethod (EVar "e") "PutString" [(EField (EVar "t") "MemberId")])]
     [];
   SIf [] (EBin Ge (EVar "version") (EInt 3))
     [SExpr (EMethod (EVar "e") "PutString" [(EField (EVar "t") "GroupInstanceId")])]
     [];
   SIf [] (EBin Ge (EVar "version") (EInt 3))
     [SExpr (EMethod (EVar "e") "PutInt16" [(EField (EVar "t") "ErrorCode")])]
     []].
(** message/messages.gen.go:4594 *)
Definition go_MemberResponse13_Decode : func := mkFunc [("t", GPtr (GNamed "MemberResponse13")); ("d", GPtr (GNamed "Decoder")); ("version", GInt I16)] [GNamed "error"]
  [SVar "err" (Some (GNamed "error")) None;
   SIf [] (EBin Ge (EVar "version") (EInt 3))
     [SAssign [(EField (EVar "t") "MemberId"); (EVar "err")] [(EMethod (EVar "d") "String" [])];
      SIf [] (EBin Ne (EVar "err") ENil)
       [SReturn [(EVar "err")]]
       []]
     [];
   SIf [] (EBin Ge (EVar "version") (EInt 3))
     [SAssign [(EField (EVar "t") "GroupInstanceId"); (EVar "err")] [(EMethod (EVar "d") "String" [])];
      SIf [] (EBin Ne (EVar "err") ENil)
       [SReturn [(EVar "err")]]
       []]
     [];
   SIf [] (EBin Ge (EVar "version") (EInt 3))
     [SAssign [(EField (EVar "t") "ErrorCode"); (EVar "err")] [(EMethod (EVar "d") "Int16" [])];
      SIf [] (EBin Ne (EVar "err") ENil)
       [SReturn [(EVar "err")]]
       []]
     [];
   SReturn [(EVar "err")]].
(** message/messages.gen.go:4627 *)
Definition go_SyncGroupRequest_Size : func := mkFunc [("t", GNamed "SyncGroupRequest"); ("version", GInt I16)] [GInt I32]
  [SVar "sz" (Some (GInt I32)) None;
   SOp (EVar "sz") Add (ECall "sizeof.String" [(EField (EVar "t") "GroupId")]);
   SOp (EVar "sz") Add (EGlobal "sizeof.Int32");
   SOp (EVar "sz") Add (ECall "sizeof.String" [(EField (EVar "t") "MemberId")]);
   SIf [] (EBin Ge (EVar "version") (EInt 3))
     [SOp (EVar "sz") Add (ECall "sizeof.String" [(EField (EVar "t") "GroupInstanceId")])]
     [];
   SOp (EVar "sz") Add (EGlobal "sizeof.ArrayLength");
   SFor [SDefine ["i"] [(EBin Sub (ELen (EField (EVar "t") "Assignments")) (EInt 1))]] (EBin Ge (EVar "i") (EInt 0)) [SOp (EVar "i") Sub (EInt 1)]
     [SOp (EVar "sz") Add (EMethod (EIndex (EField (EVar "t") "Assignments") (EVar "i")) "Size" [(EVar "version")])];
   SReturn [(EVar "sz")]].
(** message/messages.gen.go:4643 *)
Definition go_SyncGroupRequest_Encode : func := mkFunc [("t", GNamed "SyncGroupRequest"); ("e", GPtr (GNamed "Encoder")); ("version", GInt I16)] []
  [SExpr (EMethod (EVar "e") "PutString" [(EField (EVar "t") "GroupId")]);
   SExpr (EMethod (EVar "e") "PutInt32" [(EField (EVar "t") "GenerationId")]);
   SExpr (EMethod (EVar "e") "PutString" [(EField (EVar "t") "MemberId")]);
   SIf [] (EBin Ge (EVar "version") (EInt 3))
     [SExpr (EMethod (EVar "e") "PutString" [(EField (EVar "t") "GroupInstanceId")])]
     [];
   SDefine ["len4"] [(ELen (EField (EVar "t") "Assignments"))];
   SExpr (EMethod (EVar "e") "PutArrayLength" [(EVar "len4")]);
   SFor [SDefine ["i"] [(EInt 0)]] (EBin Lt (EVar "i") (EVar "len4")) [SOp (EVar "i") Add (EInt 1)]
     [SExpr (EMethod (EIndex (EField (EVar "t") "Assignments") (EVar "i")) "Encode" [(EVar "e"); (EVar "version")])]].
(** message/messages.gen.go:4659 *)
Definition go_SyncGroupRequest_Decode : func := mkFunc [("t", GPtr (GNamed "SyncGroupRequest")); ("d", GPtr (GNamed "Decoder")); ("version", GInt I16)] [GNamed "error"]
  [SVar "err" (Some (GNamed "error")) None;
   SAssign [(EField (EVar "t") "GroupId"); (EVar "err")] [(EMethod (EVar "d") "String" [])];
   SIf [] (EBin Ne (EVar "err") ENil)
     [SReturn [(EVar "err")]]
     [];
   SAssign [(EField (EVar "t") "GenerationId"); (EVar "err")] [(EMethod (EVar "d") "Int32" [])];
   SIf [] (EBin Ne (EVar "err") ENil)
     [SReturn [(EVar "err")]]
     [];
   SAssign [(EField (EVar "t") "MemberId"); (EVar "err")] [(EMethod (EVar "d") "String" [])];
   SIf [] (EBin Ne (EVar "err") ENil)
     [SReturn [(EVar "err")]]
     [];
   SIf [] (EBin Ge (EVar "version") (EInt 3))
     [SAssign [(EField (EVar "t") "GroupInstanceId"); (EVar "err")] [(EMethod (EVar "d") "String" [])];
      SIf [] (EBin Ne (EVar "err") ENil)
       [SReturn [(EVar "err")]]
       []]
     [];
   SIf [SDefine ["n"; "err"] [(EMethod (EVar "d") "ArrayLength" [])]] (EBin Ne (EVar "err") ENil)
     [SReturn [(EVar "err")]]
     [SIf [] (EBin Ge (EVar "n") (EInt 0))
       [SAssign [(EField (EVar "t") "Assignments")] [(EMake (GSlice (GNamed "SyncGroupRequestAssignment14")) (EVar "n"))];
        SFor [SDefine ["i"] [(EInt 0)]] (EBin Lt (EVar "i") (EVar "n")) [SOp (EVar "i") Add (EInt 1)]
         [SVar "item" (Some (GNamed "SyncGroupRequestAssignment14")) None;
          SIf [SDefine ["err"] [(EMethod (EAddr (EVar "item")) "Decode" [(EVar "d"); (EVar "version")])]] (EBin Ne (EVar "err") ENil)
           [SReturn [(EVar "err")]]
           [];
          SAssign [(EIndex (EField (EVar "t") "Assignments") (EVar "i"))] [(EVar "item")]]]
       []];
   SReturn [(EVar "err")]].
(** message/messages.gen.go:4701 *)
Definition go_SyncGroupRequestAssignment14_Size : func := mkFunc [("t", GNamed "SyncGroupRequestAssignment14"); ("version", GInt I16)] [GInt I32]
  [SVar "sz" (Some (GInt I32)) None;
   SOp (EVar "sz") Add (ECall "sizeof.String" [(EField (EVar "t") "MemberId")]);
   SOp (EVar "sz") Add (ECall "sizeof.Bytes" [(EField (EVar "t") "Assignment")]);
   SReturn [(EVar "sz")]].
(** message/messages.gen.go:4709 *)
Definition go_SyncGroupRequestAssignment14_Encode : func := mkFunc [("t", GNamed "SyncGroupRequestAssignment14"); ("e", GPtr (GNamed "Encoder")); ("version", GInt I16)] []
  [SExpr (EMethod (EVar "e") "PutString" [(EField (EVar "t") "MemberId")]);
   SExpr (EMethod (EVar "e") "PutBytes" [(EField (EVar "t") "Assignment")])].
(** message/messages.gen.go:4715 *)
Definition go_SyncGroupRequestAssignment14_Decode : func := mkFunc [("t", GPtr (GNamed "SyncGroupRequestAssignment14")); ("d", GPtr (GNamed "Decoder")); ("version", GInt I16)] [GNamed "error"]
  [SVar "err" (Some (GNamed "error")) None;
   SAssign [(EField (EVar "t") "MemberId"); (EVar "err")] [(EMethod (EVar "d") "String" [])];
   SIf [] (EBin Ne (EVar "err") ENil)
     [SReturn [(EVar "err")]]
     [];
   SAssign [(EField (EVar "t") "Assignment"); (EVar "err")] [(EMethod (EVar "d") "Bytes" [])];
   SIf [] (EBin Ne (EVar "err") ENil)
     [SReturn [(EVar "err")]]
     [];
   SReturn [(EVar "err")]].
(** message/messages.gen.go:4736 *)
Definition go_SyncGroupResponse_Size : func := mkFunc [("t", GNamed "SyncGroupResponse"); ("version", GInt I16)] [GInt I32]
  [SVar "sz" (Some (GInt I32)) None;
   SIf [] (EBin Ge (EVar "version") (EInt 1))
     [SOp (EVar "sz") Add (EGlobal "sizeof.Int32")]
     [];
   SOp (EVar "sz") Add (EGlobal "sizeof.Int16");
   SOp (EVar "sz") Add (ECall "sizeof.Bytes" [(EField (EVar "t") "Assignment")]);
   SReturn [(EVar "sz")]].
(** message/messages.gen.go:4747 *)
Definition go_SyncGroupResponse_Encode : func := mkFunc [("t", GNamed "SyncGroupResponse"); ("e", GPtr (GNamed "Encoder")); ("version", GInt I16)] []
  [SIf [] (EBin Ge (EVar "version") (EInt 1))
     [SExpr (EMethod (EVar "e") "PutInt32" [(EField (EVar "t") "ThrottleTimeMs")])]
     [];
   SExpr (EMethod (EVar "e") "PutInt16" [(EField (EVar "t") "ErrorCode")]);
   SExpr (EMethod (EVar "e") "PutBytes" [(EField (EVar "t") "Assignment")])].
(** message/messages.gen.go:4756 *)
Definition go_SyncGroupResponse_Decode : func := mkFunc [("t", GPtr (GNamed "SyncGroupResponse")); ("d", GPtr (GNamed "Decoder")); ("version", GInt I16)] [GNamed "error"]
  [SVar "err" (Some (GNamed "error")) None;
   SIf [] (EBin Ge (EVar "version") (EInt 1))
     [SAssign [(EField (EVar "t") "ThrottleTimeMs"); (EVar "err")] [(EMethod (EVar "d") "Int32" [])];
      SIf [] (EBin Ne (EVar "err") ENil)
       [SReturn [(EVar "err")]]
       []]
     [];
   SAssign [(EField (EVar "t") "ErrorCode"); (EVar "err")] [(EMethod (EVar "d") "Int16" [])];
   SIf [] (EBin Ne (EVar "err") ENil)
     [SReturn [(EVar "err")]]
     [];
   SAssign [(EField (EVar "t") "Assignment"); (EVar "err")] [(EMethod (EVar "d") "Bytes" [])];
   SIf [] (EBin Ne (EVar "err") ENil)
     [SReturn [(EVar "err")]]
     [];
   SReturn [(EVar "err")]].
(** message/messages.gen.go:4782 *)
Definition go_DescribeGroupsRequest_Size : func := mkFunc [("t", GNamed "DescribeGroupsRequest"); ("version", GInt I16)] [GInt I32]
  [SVar "sz" (Some (GInt I32)) None;
   SOp (EVar "sz") Add (ECall "sizeof.StringArray" [(EField (EVar "t") "Groups")]);
   SIf [] (EBin Ge (EVar "version") (EInt 3))
     [SOp (EVar "sz") Add (EGlobal "sizeof.Bool")]
     [];
   SReturn [(EVar "sz")]].
(** message/messages.gen.go:4792 *)
Definition go_DescribeGroupsRequest_Encode : func := mkFunc [("t", GNamed "DescribeGroupsRequest"); ("e", GPtr (GNamed "Encoder")); ("version", GInt I16)] []
  [SExpr (EMethod (EVar "e") "PutStringArray" [(EField (EVar "t") "Groups")]);
   SIf [] (EBin Ge (EVar "version") (EInt 3))
     [SExpr (EMethod (EVar "e") "PutBool" [(EField (EVar "t") "IncludeAuthorizedOperations")])]
     []].
(** message/messages.gen.go:4800 *)
Definition go_DescribeGroupsRequest_Decode : func := mkFunc [("t", GPtr (GNamed "DescribeGroupsRequest")); ("d", GPtr (GNamed "Decoder")); ("version", GInt I16)] [GNamed "error"]
  [SVar "err" (Some (GNamed "error")) None;
   SAssign [(EField (EVar "t") "Groups"); (EVar "err")] [(EMethod (EVar "d") "StringArray" [])];
   SIf [] (EBin Ne (EVar "err") ENil)
     [SReturn [(EVar "err")]]
     [];
   SIf [] (EBin Ge (EVar "version") (EInt 3))
     [SAssign [(EField (EVar "t") "IncludeAuthorizedOperations"); (EVar "err")] [(EMethod (EVar "d") "Bool" [])];
      SIf [] (EBin Ne (EVar "err") ENil)
       [SReturn [(EVar "err")]]
       []]
     [];
   SReturn [(EVar "err")]].
(** message/messages.gen.go:4822 *)
Definition go_DescribeGroupsResponse_Size : func := mkFunc [("t", GNamed "DescribeGroupsResponse"); ("version", GInt I16)] [GInt I32]
  [SVar "sz" (Some (GInt I32)) None;
   SIf [] (EBin Ge (EVar "version") (EInt 1))
     [SOp (EVar "sz") Add (EGlobal "sizeof.Int32")]
     [];
   SOp (EVar "sz") Add (EGlobal "sizeof.ArrayLength");
   SFor [SDefine ["i"] [(EBin Sub (ELen (EField (EVar "t") "Groups")) (EInt 1))]] (EBin Ge (EVar "i") (EInt 0)) [SOp (EVar "i") Sub (EInt 1)]
     [SOp (EVar "sz") Add (EMethod (EIndex (EField (EVar "t") "Groups") (EVar "i")) "Size" [(EVar "version")])];
   SReturn [(EVar "sz")]].
(** message/messages.gen.go:4835 *)
Definition go_DescribeGroupsResponse_Encode : func := mkFunc [("t", GNamed "DescribeGroupsResponse"); ("e", GPtr (GNamed "Encoder")); ("version", GInt I16)] []
  [SIf [] (EBin Ge (EVar "version") (EInt 1))
     [SExpr (EMethod (EVar "e") "PutInt32" [(EField (EVar "t") "ThrottleTimeMs")])]
     [];
   SDefine ["len1"] [(ELen (EField (EVar "t") "Groups"))];
   SExpr (EMethod (EVar "e") "PutArrayLength" [(EVar "len1")]);
   SFor [SDefine ["i"] [(EInt 0)]] (EBin Lt (EVar "i") (EVar "len1")) [SOp (EVar "i") Add (EInt 1)]
     [SExpr (EMethod (EIndex (EField (EVar "t") "Groups") (EVar "i")) "Encode" [(EVar "e"); (EVar "version")])]].
(** message/messages.gen.go:4848 *)
Definition go_DescribeGroupsResponse_Decode : func := mkFunc [("t", GPtr (GNamed "DescribeGroupsResponse")); ("d", GPtr (GNamed "Decoder")); ("version", GInt I16)] [GNamed "error"]
  [SVar "err" (Some (GNamed "error")) None;
   SIf [] (EBin Ge (EVar "version") (EInt 1))
     [SAssign [(EField (EVar "t") "ThrottleTimeMs"); (EVar "err")] [(EMethod (EVar "d") "Int32" [])];
      SIf [] (EBin Ne (EVar "err") ENil)
       [SReturn [(EVar "err")]]
       []]
     [];
   SIf [SDefine ["n"; "err"] [(EMethod (EVar "d") "ArrayLength" [])]] (EBin Ne (EVar "err") ENil)
     [SReturn [(EVar "err")]]
     [SIf [] (EBin Ge (EVar "n") (EInt 0))
       [SAssign [(EField (EVar "t") "Groups")] [(EMake (GSlice (GNamed "DescribedGroup15")) (EVar "n"))];
        SFor [SDefine ["i"] [(EInt 0)]] (EBin Lt (EVar "i") (EVar "n")) [SOp (EVar "i") Add (EInt 1)]
         [SVar "item" (Some (GNamed "DescribedGroup15")) None;
          SIf [SDefine ["err"] [(EMethod (EAddr (EVar "item")) "Decode" [(EVar "d"); (EVar "version")])]] (EBin Ne (EVar "err") ENil)
           [SReturn [(EVar "err")]]
           [];
          SAssign [(EIndex (EField (EVar "t") "Groups") (EVar "i"))] [(EVar "item")]]]
       []];
   SReturn [(EVar "err")]].
(** message/messages.gen.go:4883 *)
Definition go_DescribedGroup15_Size : func := mkFunc [("t", GNamed "DescribedGroup15"); ("version", GInt I16)] [GInt I32]
  [SVar "sz" (Some (GInt I32)) None;
   SOp (EVar "sz") Add (EGlobal "sizeof.Int16");
   SOp (EVar "sz") Add (ECall "sizeof.String" [(EField (EVar "t") "GroupId")]);
   SOp (EVar "sz") Add (ECall "sizeof.String" [(EField (EVar "t") "GroupState")]);
   SOp (EVar "sz") Add (ECall "sizeof.String" [(EField (EVar "t") "ProtocolType")]);
   SOp (EVar "sz") Add (ECall "sizeof.String" [(EField (EVar "t") "ProtocolData")]);
   SOp (EVar "sz") Add (EGlobal "sizeof.ArrayLength");
   SFor [SDefine ["i"] [(EBin Sub (ELen (EField (EVar "t") "Members")) (EInt 1))]] (EBin Ge (EVar "i") (EInt 0)) [SOp (EVar "i") Sub (EInt 1)]
     [SOp (EVar "sz") Add (EMethod (EIndex (EField (EVar "t") "Members") (EVar "i")) "Size" [(EVar "version")])];
   SIf [] (EBin Ge (EVar "version") (EInt 3))
     [SOp (EVar "sz") Add (EGlobal "sizeof.Int32")]
     [];
   SReturn [(EVar "sz")]].
(** message/messages.gen.go:4901 *)
Definition go_DescribedGroup15_Encode : func := mkFunc [("t", GNamed "DescribedGroup15"); ("e", GPtr (GNamed "Encoder")); ("version", GInt I16)] []
  [SExpr (EMethod (EVar "e") "PutInt16" [(EField (EVar "t") "ErrorCode")]);
   SExpr (EMethod (EVar "e") "PutString" [(EField (EVar "t") "GroupId")]);
   SExpr (EMethod (EVar "e") "PutString" [(EField (EVar "t") "GroupState")]);
   SExpr (EMethod (EVar "e") "PutString" [(EField (EVar "t") "ProtocolType")]);
   SExpr (EMethod (EVar "e") "PutString" [(EField (EVar "t") "ProtocolData")]);
   SDefine ["len5"] [(ELen (EField (EVar "t") "Members"))];
   SExpr (EMethod (EVar "e") "PutArrayLength" [(EVar "len5")]);
   SFor [SDefine ["i"] [(EInt 0)]] (EBin Lt (EVar "i") (EVar "len5")) [SOp (EVar "i") Add (EInt 1)]
     [SExpr (EMethod (EIndex (EField (EVar "t") "Members") (EVar "i")) "Encode" [(EVar "e"); (EVar "version")])];
   SIf [] (EBin Ge (EVar "version") (EInt 3))
     [SExpr (EMethod (EVar "e") "PutInt32" [(EField (EVar "t") "AuthorizedOperations")])]
     []].
(** message/messages.gen.go:4919 *)
Definition go_DescribedGroup15_Decode : func := mkFunc [("t", GPtr (GNamed "DescribedGroup15")); ("d", GPtr (GNamed "Decoder")); ("version", GInt I16)] [GNamed "error"]
  [SVar "err" (Some (GNamed "error")) None;
   SAssign [(EField (EVar "t") "ErrorCode"); (EVar "err")] [(EMethod (EVar "d") "Int16" [])];
   SIf [] (EBin Ne (EVar "err") ENil)
     [SReturn [(EVar "err")]]
     [];
   SAssign [(EField (EVar "t") "GroupId"); (EVar "err")] [(EMethod (EVar "d") "String" [])];
   SIf [] (EBin Ne (EVar "err") ENil)
     [SReturn [(EVar "err")]]
     [];
   SAssign [(EField (EVar "t") "GroupState"); (EVar "err")] [(EMethod (EVar "d") "String" [])];
   SIf [] (EBin Ne (EVar "err") ENil)
     [SReturn [(EVar "err")]]
     [];
   SAssign [(EField (EVar "t") "ProtocolType"); (EVar "err")] [(EMethod (EVar "d") "String" [])];
   SIf [] (EBin Ne (EVar "err") ENil)
     [SReturn [(EVar "err")]]
     [];
   SAssign [(EField (EVar "t") "ProtocolData"); (EVar "err")] [(EMethod (EVar "d") "String" [])];
   SIf [] (EBin Ne (EVar "err") ENil)
     [SReturn [(EVar "err")]]
     [];
   SIf [SDefine ["n"; "err"] [(EMethod (EVar "d") "ArrayLength" [])]] (EBin Ne (EVar "err") ENil)
     [SReturn [(EVar "err")]]
     [SIf [] (EBin Ge (EVar "n") (EInt 0))
       [SAssign [(EField (EVar "t") "Members")] [(EMake (GSlice (GNamed "DescribedGroupMember15")) (EVar "n"))];
        SFor [SDefine ["i"] [(EInt 0)]] (EBin Lt (EVar "i") (EVar "n")) [SOp (EVar "i") Add (EInt 1)]
         [SVar "item" (Some (GNamed "DescribedGroupMember15")) None;
          SIf [SDefine ["err"] [(EMethod (EAddr (EVar "item")) "Decode" [(EVar "d"); (EVar "version")])]] (EBin Ne (EVar "err") ENil)
           [SReturn [(EVar "err")]]
           [];
          SAssign [(EIndex (EField (EVar "t") "Members") (EVar "i"))] [(EVar "item")]]]
       []];
   SIf [] (EBin Ge (EVar "version") (EInt 3))
     [SAssign [(EField (EVar "t") "AuthorizedOperations"); (EVar "err")] [(EMethod (EVar "d") "Int32" [])];
      SIf [] (EBin Ne (EVar "err") ENil)
       [SReturn [(EVar "err")]]
       []]
     [];
   SReturn [(EVar "err")]].
(** message/messages.gen.go:4973 *)
Definition go_DescribedGroupMember15_Size : func := mkFunc [("t", GNamed "DescribedGroupMember15"); ("version", GInt I16)] [GInt I32]
  [SVar "sz" (Some (GInt I32)) None;
   SOp (EVar "sz") Add (ECall "sizeof.String" [(EField (EVar "t") "MemberId")]);
   SIf [] (EBin Ge (EVar "version") (EInt 4))
     [SOp (EVar "sz") Add (ECall "sizeof.String" [(EField (EVar "t") "GroupInstanceId")])]
     [];
   SOp (EVar "sz") Add (ECall "sizeof.String" [(EField (EVar "t") "ClientId")]);
   SOp (EVar "sz") Add (ECall "sizeof.String" [(EField (EVar "t") "ClientHost")]);
   SOp (EVar "sz") Add (ECall "sizeof.Bytes" [(EField (EVar "t") "MemberMetadata")]);
   SOp (EVar "sz") Add (ECall "sizeof.Bytes" [(EField (EVar "t") "MemberAssignment")]);
   SReturn [(EVar "sz")]].
(** message/messages.gen.go:4987 *)
Definition go_DescribedGroupMember15_Encode : func := mkFunc [("t", GNamed "DescribedGroupMember15"); ("e", GPtr (GNamed "Encoder")); ("version", GInt I16)] []
  [SExpr (EMethod (EVar "e") "PutString" [(EField (EVar "t") "MemberId")]);
   SIf [] (EBin Ge (EVar "version") (EInt 4))
     [SExpr (EMethod (EVar "e") "PutString" [(EField (EVar "t") "GroupInstanceId")])]
     [];
   SExpr (EMethod (EVar "e") "PutString" [(EField (EVar "t") "ClientId")]);
   SExpr (EMethod (EVar "e") "PutString" [(EField (EVar "t") "ClientHost")]);
   SExpr (EMethod (EVar "e") "PutBytes" [(EField (EVar "t") "MemberMetadata")]);
   SExpr (EMethod (EVar "e") "PutBytes" [(EField (EVar "t") "MemberAssignment")])].
(** message/messages.gen.go:4999 *)
Definition go_DescribedGroupMember15_Decode : func := mkFunc [("t", GPtr (GNamed "DescribedGroupMember15")); ("d", GPtr (GNamed "Decoder")); ("version", GInt I16)] [GNamed "error"]
  [SVar "err" (Some (GNamed "error")) None;
   SAssign [(EField (EVar "t") "MemberId"); (EVar "err")] [(EMethod (EVar "d") "String" [])];
   SIf [] (EBin Ne (EVar "err") ENil)
     [SReturn [(EVar "err")]]
     [];
   SIf [] (EBin Ge (EVar "version") (EInt 4))
     [SAssign [(EField (EVar "t") "GroupInstanceId"); (EVar "err")] [(EMethod (EVar "d") "String" [])];
      SIf [] (EBin Ne (EVar "err") ENil)
       [SReturn [(EVar "err")]]
       []]
     [];
   SAssign [(EField (EVar "t") "ClientId"); (EVar "err")] [(EMethod (EVar "d") "String" [])];
   SIf [] (EBin Ne (EVar "err") ENil)
     [SReturn [(EVar "err")]]
     [];
   SAssign [(EField (EVar "t") "ClientHost"); (EVar "err")] [(EMethod (EVar "d") "String" [])];
   SIf [] (EBin Ne (EVar "err") ENil)
     [SReturn [(EVar "err")]]
     [];
   SAssign [(EField (EVar "t") "MemberMetadata"); (EVar "err")] [(EMethod (EVar "d") "Bytes" [])];
   SIf [] (EBin Ne (EVar "err") ENil)
     [SReturn [(EVar "err")]]
     [];
   SAssign [(EField (EVar "t") "MemberAssignment"); (EVar "err")] [(EMethod (EVar "d") "Bytes" [])];
   SIf [] (EBin Ne (EVar "err") ENil)
     [SReturn [(EVar "err")]]
     [];
   SReturn [(EVar "err")]].
(** message/messages.gen.go:5035 *)
Definition go_ListGroupsRequest_Size : func := mkFunc [("t", GNamed "ListGroupsRequest"); ("version", GInt I16)] [GInt I32]
  [SVar "sz" (Some (GInt I32)) None;
   SReturn [(EVar "sz")]].
(** message/messages.gen.go:5041 *)
Definition go_ListGroupsRequest_Encode : func := mkFunc [("t", GNamed "ListGroupsRequest"); ("e", GPtr (GNamed "Encoder")); ("version", GInt I16)] []
  [].
(** message/messages.gen.go:5045 *)
Definition go_ListGroupsRequest_Decode : func := mkFunc [("t", GPtr (GNamed "ListGroupsRequest")); ("d", GPtr (GNamed "Decoder")); ("version", GInt I16)] [GNamed "error"]
  [SVar "err" (Some (GNamed "error")) None;
   SReturn [(EVar "err")]].
(** message/messages.gen.go:5058 *)
Definition go_ListGroupsResponse_Size : func := mkFunc [("t", GNamed "ListGroupsResponse"); ("version", GInt I16)] [GInt I32]
  [SVar "sz" (Some (GInt I32)) None;
   SIf [] (EBin Ge (EVar "version") (EInt 1))
     [SOp (EVar "sz") Add (EGlobal "sizeof.Int32")]
     [];
   SOp (EVar "sz") Add (EGlobal "sizeof.Int16");
   SOp (EVar "sz") Add (EGlobal "sizeof.ArrayLength");
   SFor [SDefine ["i"] [(EBin Sub (ELen (EField (EVar "t") "Groups")) (EInt 1))]] (EBin Ge (EVar "i") (EInt 0)) [SOp (EVar "i") Sub (EInt 1)]
     [SOp (EVar "sz") Add (EMethod (EIndex (EField (EVar "t") "Groups") (EVar "i")) "Size" [(EVar "version")])];
   SReturn [(EVar "sz")]].
(** message/messages.gen.go:5072 *)
Definition go_ListGroupsResponse_Encode : func := mkFunc [("t", GNamed "ListGroupsResponse"); ("e", GPtr (GNamed "Encoder")); ("version", GInt I16)] []
  [SIf [] (EBin Ge (EVar "version") (EInt 1))
     [SExpr (EMethod (EVar "e") "PutInt32" [(EField (EVar "t") "ThrottleTimeMs")])]
     [];
   SExpr (EMethod (EVar "e") "PutInt16" [(EField (EVar "t") "ErrorCode")]);
   SDefine ["len2"] [(ELen (EField (EVar "t") "Groups"))];
   SExpr (EMethod (EVar "e") "PutArrayLength" [(EVar "len2")]);
   SFor [SDefine ["i"] [(EInt 0)]] (EBin Lt (EVar "i") (EVar "len2")) [SOp (EVar "i") Add (EInt 1)]
     [SExpr (EMethod (EIndex (EField (EVar "t") "Groups") (EVar "i")) "Encode" [(EVar "e"); (EVar "version")])]].
(** message/messages.gen.go:5086 *)
Definition go_ListGroupsResponse_Decode : func := mkFunc [("t", GPtr (GNamed "ListGroupsResponse")); ("d", GPtr (GNamed "Decoder")); ("version", GInt I16)] [GNamed "error"]
  [SVar "err" (Some (GNamed "error")) None;
   SIf [] (EBin Ge (EVar "version") (EInt 1))
     [SAssign [(EField (EVar "t") "ThrottleTimeMs"); (EVar "err")] [(EMethod (EVar "d") "Int32" [])];
      SIf [] (EBin Ne (EVar "err") ENil)
       [SReturn [(EVar "err")]]
       []]
     [];
   SAssign [(EField (EVar "t") "ErrorCode"); (EVar "err")] [(EMethod (EVar "d") "Int16" [])];
   SIf [] (EBin Ne (EVar "err") ENil)
     [SReturn [(EVar "err")]]
     [];
   SIf [SDefine ["n"; "err"] [(EMethod (EVar "d") "ArrayLength" [])]] (EBin Ne (EVar "err") ENil)
     [SReturn [(EVar "err")]]
     [SIf [] (EBin Ge (EVar "n") (EInt 0))
       [SAssign [(EField (EVar "t") "Groups")] [(EMake (GSlice (GNamed "ListedGroup16")) (EVar "n"))];
        SFor [SDefine ["i"] [(EInt 0)]] (EBin Lt (EVar "i") (EVar "n")) [SOp (EVar "i") Add (EInt 1)]
         [SVar "item" (Some (GNamed "ListedGroup16")) None;
          SIf [SDefine ["err"] [(EMethod (EAddr (EVar "item")) "Decode" [(EVar "d"); (EVar "version")])]] (EBin Ne (EVar "err") ENil)
           [SReturn [(EVar "err")]]
           [];
          SAssign [(EIndex (EField (EVar "t") "Groups") (EVar "i"))] [(EVar "item")]]]
       []];
   SReturn [(EVar "err")]].
(** message/messages.gen.go:5120 *)
Definition go_ListedGroup16_Size : func := mkFunc [("t", GNamed "ListedGroup16"); ("version", GInt I16)] [GInt I32]
  [SVar "sz" (Some (GInt I32)) None;
   SOp (EVar "sz") Add (ECall "sizeof.String" [(EField (EVar "t") "GroupId")]);
   SOp (EVar "sz") Add (ECall "sizeof.String" [(EField (EVar "t") "ProtocolType")]);
   SReturn [(EVar "sz")]].
(** message/messages.gen.go:5128 *)
Definition go_ListedGroup16_Encode : func := mkFunc [("t", GNamed "ListedGroup16"); ("e", GPtr (GNamed "Encoder")); ("version", GInt I16)] []
  [SExpr (EMethod (EVar "e") "PutString" [(EField (EVar "t") "GroupId")]);
   SExpr (EMethod (EVar "e") "PutString" [(EField (EVar "t") "ProtocolType")])].
(** message/messages.gen.go:5134 *)
Definition go_ListedGroup16_Decode : func := mkFunc [("t", GPtr (GNamed "ListedGroup16")); ("d", GPtr (GNamed "Decoder")); ("version", GInt I16)] [GNamed "error"]
  [SVar "err" (Some (GNamed "error")) None;
   SAssign [(EField (EVar "t") "GroupId"); (EVar "err")] [(EMethod (EVar "d") "String" [])];
   SIf [] (EBin Ne (EVar "err") ENil)
     [SReturn [(EVar "err")]]
     [];
   SAssign [(EField (EVar "t") "ProtocolType"); (EVar "err")] [(EMethod (EVar "d") "String" [])];
   SIf [] (EBin Ne (EVar "err") ENil)
     [SReturn [(EVar "err")]]
     [];
   SReturn [(EVar "err")]].
(** message/messages.gen.go:5153 *)
Definition go_SaslHandshakeRequest_Size : func := mkFunc [("t", GNamed "SaslHandshakeRequest"); ("version", GInt I16)] [GInt I32]
  [SVar "sz" (Some (GInt I32)) None;
   SOp (EVar "sz") Add (ECall "sizeof.String" [(EField (EVar "t") "Mechanism")]);
   SReturn [(EVar "sz")]].
(** message/messages.gen.go:5160 *)
Definition go_SaslHandshakeRequest_Encode : func := mkFunc [("t", GNamed "SaslHandshakeRequest"); ("e", GPtr (GNamed "Encoder")); ("version", GInt I16)] []
  [SExpr (EMethod (EVar "e") "PutString" [(EField (EVar "t") "Mechanism")])].
(** message/messages.gen.go:5165 *)
Definition go_SaslHandshakeRequest_Decode : func := mkFunc [("t", GPtr (GNamed "SaslHandshakeRequest")); ("d", GPtr (GNamed "Decoder")); ("version", GInt I16)] [GNamed "error"]
  [SVar "err" (Some (GNamed "error")) None;
   SAssign [(EField (EVar "t") "Mechanism"); (EVar "err")] [(EMethod (EVar "d") "String" [])];
   SIf [] (EBin Ne (EVar "err") ENil)
     [SReturn [(EVar "err")]]
     [];
   SReturn [(EVar "err")]].
(** message/messages.gen.go:5181 *)
Definition go_SaslHandshakeResponse_Size : func := mkFunc [("t", GNamed "SaslHandshakeResponse"); ("version", GInt I16)] [GInt I32]
  [SVar "sz" (Some (GInt I32)) None;
   SOp (EVar "sz") Add (EGlobal "sizeof.Int16");
   SOp (EVar "sz") Add (ECall "sizeof.StringArray" [(EField (EVar "t") "Mechanisms")]);
   SReturn [(EVar "sz")]].
(** message/messages.gen.go:5189 *)
Definition go_SaslHandshakeResponse_Encode : func := mkFunc [("t", GNamed "SaslHandshakeResponse"); ("e", GPtr (GNamed "Encoder")); ("version", GInt I16)] []
  [SExpr (EMethod (EVar "e") "PutInt16" [(EField (EVar "t") "ErrorCode")]);
   SExpr (EMethod (EVar "e") "PutStringArray" [(EField (EVar "t") "Mechanisms")])].
(** message/messages.gen.go:5195 *)
Definition go_SaslHandshakeResponse_Decode : func := mkFunc [("t", GPtr (GNamed "SaslHandshakeResponse")); ("d", GPtr (GNamed "Decoder")); ("version", GInt I16)] [GNamed "error"]
  [SVar "err" (Some (GNamed "error")) None;
   SAssign [(EField (EVar "t") "ErrorCode"); (EVar "err")] [(EMethod (EVar "d") "Int16" [])];
   SIf [] (EBin Ne (EVar "err") ENil)
     [SReturn [(EVar "err")]]
     [];
   SAssign [(EField (EVar "t") "Mechanisms"); (EVar "err")] [(EMethod (EVar "d") "StringArray" [])];
   SIf [] (EBin Ne (EVar "err") ENil)
     [SReturn [(EVar "err")]]
     [];
   SReturn [(EVar "err")]].
(** message/messages.gen.go:5215 *)
Definition go_ApiVersionsRequest_Size : func := mkFunc [("t", GNamed "ApiVersionsRequest"); ("version", GInt I16)] [GInt I32]
  [SVar "sz" (Some (GInt I32)) None;
   SIf [] (EBin Ge (EVar "version") (EInt 3))
     [SOp (EVar "sz") Add (ECall "sizeof.String" [(EField (EVar "t") "ClientSoftwareName")])]
     [];
   SIf [] (EBin Ge (EVar "version") (EInt 3))
     [SOp (EVar "sz") Add (ECall "sizeof.String" [(EField (EVar "t") "ClientSoftwareVersion")])]
     [];
   SReturn [(EVar "sz")]].
(** message/messages.gen.go:5227 *)
Definition go_ApiVersionsRequest_Encode : func := mkFunc [("t", GNamed "ApiVersionsRequest"); ("e", GPtr (GNamed "Encoder")); ("version", GInt I16)] []
  [SIf [] (EBin Ge (EVar "version") (EInt 3))
     [SExpr (EMethod (EVar "e") "PutString" [(EField (EVar "t") "ClientSoftwareName")])]
     [];
   SIf [] (EBin Ge (EVar "version") (EInt 3))
     [SExpr (EMethod (EVar "e") "PutString" [(EField (EVar "t") "ClientSoftwareVersion")])]
     []].
(** message/messages.gen.go:5237 *)
Definition go_ApiVersionsRequest_Decode : func := mkFunc [("t", GPtr (GNamed "ApiVersionsRequest")); ("d", GPtr (GNamed "Decoder")); ("version", GInt I16)] [GNamed "error"]
  [SVar "err" (Some (GNamed "error")) None;
   SIf [] (EBin Ge (EVar "version") (EInt 3))
     [SAssign [(EField (EVar "t") "ClientSoftwareName"); (EVar "err")] [(EMethod (EVar "d") "String" [])];
      SIf [] (EBin Ne (EVar "err") ENil)
       [SReturn [(EVar "err")]]
       []]
     [];
   SIf [] (EBin Ge (EVar "version") (EInt 3))
     [SAssign [(EField (EVar "t") "ClientSoftwareVersion"); (EVar "err")] [(EMethod (EVar "d") "String" [])];
      SIf [] (EBin Ne (EVar "err") ENil)
       [SReturn [(EVar "err")]]
       []]
     [];
   SReturn [(EVar "err")]].
(** message/messages.gen.go:5262 *)
Definition go_ApiVersionsResponse_Size : func := mkFunc [("t", GNamed "ApiVersionsResponse"); ("version", GInt I16)] [GInt I32]
  [SVar "sz" (Some (GInt I32)) None;
   SOp (EVar "sz") Add (EGlobal "sizeof.Int16");
   SOp (EVar "sz") Add (EGlobal "sizeof.ArrayLength");
   SFor [SDefine ["i"] [(EBin Sub (ELen (EField (EVar "t") "ApiKeys")) (EInt 1))]] (EBin Ge (EVar "i") (EInt 0)) [SOp (EVar "i") Sub (EInt 1)]
     [SOp (EVar "sz") Add (EMethod (EIndex (EField (EVar "t") "ApiKeys") (EVar "i")) "Size" [(EVar "version")])];
   SIf [] (EBin Ge (EVar "version") (EInt 1))
     [SOp (EVar "sz") Add (EGlobal "sizeof.Int32")]
     [];
   SReturn [(EVar "sz")]].
(** message/messages.gen.go:5276 *)
Definition go_ApiVersionsResponse_Encode : func := mkFunc [("t", GNamed "ApiVersionsResponse"); ("e", GPtr (GNamed "Encoder")); ("version", GInt I16)] []
  [SExpr (EMethod (EVar "e") "PutInt16" [(EField (EVar "t") "ErrorCode")]);
   SDefine ["len1"] [(ELen (EField (EVar "t") "ApiKeys"))];
   SExpr (EMethod (EVar "e") "PutArrayLength" [(EVar "len1")]);
   SFor [SDefine ["i"] [(EInt 0)]] (EBin Lt (EVar "i") (EVar "len1")) [SOp (EVar "i") Add (EInt 1)]
     [SExpr (EMethod (EIndex (EField (EVar "t") "ApiKeys") (EVar "i")) "Encode" [(EVar "e"); (EVar "version")])];
   SIf [] (EBin Ge (EVar "version") (EInt 1))
     [SExpr (EMethod (EVar "e") "PutInt32" [(EField (EVar "t") "ThrottleTimeMs")])]
     []].
(** message/messages.gen.go:5290 *)
Definition go_ApiVersionsResponse_Decode : func := mkFunc [("t", GPtr (GNamed "ApiVersionsResponse")); ("d", GPtr (GNamed "Decoder")); ("version", GInt I16)] [GNamed "error"]
  [SVar "err" (Some (GNamed "error")) None;
   SAssign [(EField (EVar "t") "ErrorCode"); (EVar "err")] [(EMethod (EVar "d") "Int16" [])];
   SIf [] (EBin Ne (EVar "err") ENil)
     [SReturn [(EVar "err")]]
     [];
   SIf [SDefine ["n"; "err"] [(EMethod (EVar "d") "ArrayLength" [])]] (EBin Ne (EVar "err") ENil)
     [SReturn [(EVar "err")]]
     [SIf [] (EBin Ge (EVar "n") (EInt 0))
       [SAssign [(EField (EVar "t") "ApiKeys")] [(EMake (GSlice (GNamed "ApiVersionsResponseKey18")) (EVar "n"))];
        SFor [SDefine ["i"] [(EInt 0)]] (EBin Lt (EVar "i") (EVar "n")) [SOp (EVar "i") Add (EInt 1)]
         [SVar "item" (Some (GNamed "ApiVersionsResponseKey18")) None;
          SIf [SDefine ["err"] [(EMethod (EAddr (EVar "item")) "Decode" [(EVar "d"); (EVar "version")])]] (EBin Ne (EVar "err") ENil)
           [SReturn [(EVar "err")]]
           [];
          SAssign [(EIndex (EField (EVar "t") "ApiKeys") (EVar "i"))] [(EVar "item")]]]
       []];
   SIf [] (EBin Ge (EVar "version") (EInt 1))
     [SAssign [(EField (EVar "t") "ThrottleTimeMs"); (EVar "err")] [(EMethod (EVar "d") "Int32" [])];
      SIf [] (EBin Ne (EVar "err") ENil)
       [SReturn [(EVar "err")]]
       []]
     [];
   SReturn [(EVar "err")]].
(** message/messages.gen.go:5325 *)
Definition go_ApiVersionsResponseKey18_Size : func := mkFunc [("t", GNamed "ApiVersionsResponseKey18"); ("version", GInt I16)] [GInt I32]
  [SVar "sz" (Some (GInt I32)) None;
   SOp (EVar "sz") Add (EGlobal "sizeof.Int16");
   SOp (EVar "sz") Add (EGlobal "sizeof.Int16");
   SOp (EVar "sz") Add (EGlobal "sizeof.Int16");
   SReturn [(EVar "sz")]].
(** message/messages.gen.go:5334 *)
Definition go_ApiVersionsResponseKey18_Encode : func := mkFunc [("t", GNamed "ApiVersionsResponseKey18"); ("e", GPtr (GNamed "Encoder")); ("version", GInt I16)] []
  [SExpr (EMethod (EVar "e") "PutInt16" [(EField (EVar "t") "ApiKey")]);
   SExpr (EMethod (EVar "e") "PutInt16" [(EField (EVar "t") "MinVersion")]);
   SExpr (EMethod (EVar "e") "PutInt16" [(EField (EVar "t") "MaxVersion")])].
(** message/messages.gen.go:5341 *)
Definition go_ApiVersionsResponseKey18_Decode : func := mkFunc [("t", GPtr (GNamed "ApiVersionsResponseKey18")); ("d", GPtr (GNamed "Decoder")); ("version", GInt I16)] [GNamed "error"]
  [SVar "err" (Some (GNamed "error")) None;
   SAssign [(EField (EVar "t") "ApiKey"); (EVar "err")] [(EMethod (EVar "d") "Int16" [])];
   SIf [] (EBin Ne (EVar "err") ENil)
     [SReturn [(EVar "err")]]
     [];
   SAssign [(EField (EVar "t") "MinVersion"); (EVar "err")] [(EMethod (EVar "d") "Int16" [])];
   SIf [] (EBin Ne (EVar "err") ENil)
     [SReturn [(EVar "err")]]
     [];
   SAssign [(EField (EVar "t") "MaxVersion"); (EVar "err")] [(EMethod (EVar "d") "Int16" [])];
   SIf [] (EBin Ne (EVar "err") ENil)
     [SReturn [(EVar "err")]]
     [];
   SReturn [(EVar "err")]].
(** message/messages.gen.go:5366 *)
Definition go_CreateTopicsRequest_Size : func := mkFunc [("t", GNamed "CreateTopicsRequest"); ("version", GInt I16)] [GInt I32]
  [SVar "sz" (Some (GInt I32)) None;
   SOp (EVar "sz") Add (EGlobal "sizeof.ArrayLength");
   SFor [SDefine ["i"] [(EBin Sub (ELen (EField (EVar "t") "Topics")) (EInt 1))]] (EBin Ge (EVar "i") (EInt 0)) [SOp (EVar "i") Sub (EInt 1)]
     [SOp (EVar "sz") Add (EMethod (EIndex (EField (EVar "t") "Topics") (EVar "i")) "Size" [(EVar "version")])];
   SOp (EVar "sz") Add (EGlobal "sizeof.Int32");
   SIf [] (EBin Ge (EVar "version") (EInt 1))
     [SOp (EVar "sz") Add (EGlobal "sizeof.Bool")]
     [];
   SReturn [(EVar "sz")]].
(** message/messages.gen.go:5380 *)
Definition go_CreateTopicsRequest_Encode : func := mkFunc [("t", GNamed "CreateTopicsRequest"); ("e", GPtr (GNamed "Encoder")); ("version", GInt I16)] []
  [SDefine ["len0"] [(ELen (EField (EVar "t") "Topics"))];
   SExpr (EMethod (EVar "e") "PutArrayLength" [(EVar "len0")]);
   SFor [SDefine ["i"] [(EInt 0)]] (EBin Lt (EVar "i") (EVar "len0")) [SOp (EVar "i") Add (EInt 1)]
     [SExpr (EMethod (EIndex (EField (EVar "t") "Topics") (EVar "i")) "Encode" [(EVar "e"); (EVar "version")])];
   SExpr (EMethod (EVar "e") "PutInt32" [(EField (EVar "t") "timeoutMs")]);
   SIf [] (EBin Ge (EVar "version") (EInt 1))
     [SExpr (EMethod (EVar "e") "PutBool" [(EField (EVar "t") "validateOnly")])]
     []].
(** message/messages.gen.go:5394 *)
Definition go_CreateTopicsRequest_Decode : func := mkFunc [("t", GPtr (GNamed "CreateTopicsRequest")); ("d", GPtr (GNamed "Decoder")); ("version", GInt I16)] [GNamed "error"]
  [SVar "err" (Some (GNamed "error")) None;
   SIf [SDefine ["n"; "err"] [(EMethod (EVar "d") "ArrayLength" [])]] (EBin Ne (EVar "err") ENil)
     [SReturn [(EVar "err")]]
     [SIf [] (EBin Ge (EVar "n") (EInt 0))
       [SAssign [(EField (EVar "t") "Topics")] [(EMake (GSlice (GNamed "CreatableTopic19")) (EVar "n"))];
        SFor [SDefine ["i"] [(EInt 0)]] (EBin Lt (EVar "i") (EVar "n")) [SOp (EVar "i") Add (EInt 1)]
         [SVar "item" (Some (GNamed "CreatableTopic19")) None;
          SIf [SDefine ["err"] [(EMethod (EAddr (EVar "item")) "Decode" [(EVar "d"); (EVar "version")])]] (EBin Ne (EVar "err") ENil)
           [SReturn [(EVar "err")]]
           [];
          SAssign [(EIndex (EField (EVar "t") "Topics") (EVar "i"))] [(EVar "item")]]]
       []];
   SAssign [(EField (EVar "t") "timeoutMs"); (EVar "err")] [(EMethod (EVar "d") "Int32" [])];
   SIf [] (EBin Ne (EVar "err") ENil)
     [SReturn [(EVar "err")]]
     [];
   SIf [] (EBin Ge (EVar "version") (EInt 1))
     [SAssign [(EField (EVar "t") "validateOnly"); (EVar "err")] [(EMethod (EVar "d") "Bool" [])];
      SIf [] (EBin Ne (EVar "err") ENil)
       [SReturn [(EVar "err")]]
       []]
     [];
   SReturn [(EVar "err")]].
(** message/messages.gen.go:5431 *)
Definition go_CreatableTopic19_Size : func := mkFunc [("t", GNamed "CreatableTopic19"); ("version", GInt I16)] [GInt I32]
  [SVar "sz" (Some (GInt I32)) None;
   SOp (EVar "sz") Add (ECall "sizeof.String" [(EField (EVar "t") "Name")]);
   SOp (EVar "sz") Add (EGlobal "sizeof.Int32");
   SOp (EVar "sz") Add (EGlobal "sizeof.Int16");
   SOp (EVar "sz") Add (EGlobal "sizeof.ArrayLength");
   SFor [SDefine ["i"] [(EBin Sub (ELen (EField (EVar "t") "Assignments")) (EInt 1))]] (EBin Ge (EVar "i") (EInt 0)) [SOp (EVar "i") Sub (EInt 1)]
     [SOp (EVar "sz") Add (EMethod (EIndex (EField (EVar "t") "Assignments") (EVar "i")) "Size" [(EVar "version")])];
   SOp (EVar "sz") Add (EGlobal "sizeof.ArrayLength");
   SFor [SDefine ["i"] [(EBin Sub (ELen (EField (EVar "t") "Configs")) (EInt 1))]] (EBin Ge (EVar "i") (EInt 0)) [SOp (EVar "i") Sub (EInt 1)]
     [SOp (EVar "sz") Add (EMethod (EIndex (EField (EVar "t") "Configs") (EVar "i")) "Size" [(EVar "version")])];
   SReturn [(EVar "sz")]].
(** message/messages.gen.go:5448 *)
Definition go_CreatableTopic19_Encode : func := mkFunc [("t", GNamed "CreatableTopic19"); ("e", GPtr (GNamed "Encoder")); ("version", GInt I16)] []
  [SExpr (EMethod (EVar "e") "PutString" [(EField (EVar "t") "Name")]);
   SExpr (EMethod (EVar "e") "PutInt32" [(EField (EVar "t") "NumPartitions")]);
   SExpr (EMethod (EVar "e") "PutInt16" [(EField (EVar "t") "ReplicationFactor")]);
   SDefine ["len3"] [(ELen (EField (EVar "t") "Assignments"))];
   SExpr (EMethod (EVar "e") "PutArrayLength" [(EVar "len3")]);
   SFor [SDefine ["i"] [(EInt 0)]] (EBin Lt (EVar "i") (EVar "len3")) [SOp (EVar "i") Add (EInt 1)]
     [SExpr (EMethod (EIndex (EField (EVar "t") "Assignments") (EVar "i")) "Encode" [(EVar "e"); (EVar "version")])];
   SDefine ["len4"] [(ELen (EField (EVar "t") "Configs"))];
   SExpr (EMethod (EVar "e") "PutArrayLength" [(EVar "len4")]);
   SFor [SDefine ["i"] [(EInt 0)]] (EBin Lt (EVar "i") (EVar "len4")) [SOp (EVar "i") Add (EInt 1)]
     [SExpr (EMethod (EIndex (EField (EVar "t") "Configs") (EVar "i")) "Encode" [(EVar "e"); (EVar "version")])]].
(** message/messages.gen.go:5467 *)
Definition go_CreatableTopic19_Decode : func := mkFunc [("t", GPtr (GNamed "CreatableTopic19")); ("d", GPtr (GNamed "Decoder")); ("version", GInt I16)] [GNamed "error"]
  [SVar "err" (Some (GNamed "error")) None;
   SAssign [(EField (EVar "t") "Name"); (EVar "err")] [(EMethod (EVar "d") "String" [])];
   SIf [] (EBin Ne (EVar "err") ENil)
     [SReturn [(EVar "err")]]
     [];
   SAssign [(EField (EVar "t") "NumPartitions"); (EVar "err")] [(EMethod (EVar "d") "Int32" [])];
   SIf [] (EBin Ne (EVar "err") ENil)
     [SReturn [(EVar "err")]]
     [];
   SAssign [(EField (EVar "t") "ReplicationFactor"); (EVar "err")] [(EMethod (EVar "d") "Int16" [])];
   SIf [] (EBin Ne (EVar "err") ENil)
     [SReturn [(EVar "err")]]
     [];
   SIf [SDefine ["n"; "err"] [(EMethod (EVar "d") "ArrayLength" [])]] (EBin Ne (EVar "err") ENil)
     [SReturn [(EVar "err")]]
     [SIf [] (EBin Ge (EVar "n") (EInt 0))
       [SAssign [(EField (EVar "t") "Assignments")] [(EMake (GSlice (GNamed "CreatableReplicaAssignment19")) (EVar "n"))];
        SFor [SDefine ["i"] [(EInt 0)]] (EBin Lt (EVar "i") (EVar "n")) [SOp (EVar "i") Add (EInt 1)]
         [SVar "item" (Some (GNamed "CreatableReplicaAssignment19")) None;
          SIf [SDefine ["err"] [(EMethod (EAddr (EVar "item")) "Decode" [(EVar "d"); (EVar "version")])]] (EBin Ne (EVar "err") ENil)
           [SReturn [(EVar "err")]]
           [];
          SAssign [(EIndex (EField (EVar "t") "Assignments") (EVar "i"))] [(EVar "item")]]]
       []];
   SIf [SDefine ["n"; "err"] [(EMethod (EVar "d") "ArrayLength" [])]] (EBin Ne (EVar "err") ENil)
     [SReturn [(EVar "err")]]
     [SIf [] (EBin Ge (EVar "n") (EInt 0))
       [SAssign [(EField (EVar "t") "Configs")] [(EMake (GSlice (GNamed "CreateableTopicConfig19")) (EVar "n"))];
        SFor [SDefine ["i"] [(EInt 0)]] (EBin Lt (EVar "i") (EVar "n")) [SOp (EVar "i") Add (EInt 1)]
         [SVar "item" (Some (GNamed "CreateableTopicConfig19")) None;
          SIf [SDefine ["err"] [(EMethod (EAddr (EVar "item")) "Decode" [(EVar "d"); (EVar "version")])]] (EBin Ne (EVar "err") ENil)
           [SReturn [(EVar "err")]]
           [];
          SAssign [(EIndex (EField (EVar "t") "Configs") (EVar "i"))] [(EVar "item")]]]
       []];
   SReturn [(EVar "err")]].
(** message/messages.gen.go:5516 *)
Definition go_CreatableReplicaAssignment19_Size : func := mkFunc [("t", GNamed "CreatableReplicaAssignment19"); ("version", GInt I16)] [GInt I32]
  [SVar "sz" (Some (GInt I32)) None;
   SOp (EVar "sz") Add (EGlobal "sizeof.Int32");
   SOp (EVar "sz") Add (ECall "sizeof.Int32Array" [(EField (EVar "t") "BrokerIds")]);
   SReturn [(EVar "sz")]].
(** message/messages.gen.go:5524 *)
Definition go_CreatableReplicaAssignment19_Encode : func := mkFunc [("t", GNamed "CreatableReplicaAssignment19"); ("e", GPtr (GNamed "Encoder")); ("version", GInt I16)] []
  [SExpr (EMethod (EVar "e") "PutInt32" [(EField (EVar "t") "PartitionIndex")]);
   SExpr (EMethod (EVar "e") "PutInt32Array" [(EField (EVar "t") "BrokerIds")])].
(** message/messages.gen.go:5530 *)
Definition go_CreatableReplicaAssignment19_Decode : func := mkFunc [("t", GPtr (GNamed "CreatableReplicaAssignment19")); ("d", GPtr (GNamed "Decoder")); ("version", GInt I16)] [GNamed "error"]
  [SVar "err" (Some (GNamed "error")) None;
   SAssign [(EField (EVar "t") "PartitionIndex"); (EVar "err")] [(EMethod (EVar "d") "Int32" [])];
   SIf [] (EBin Ne (EVar "err") ENil)
     [SReturn [(EVar "err")]]
     [];
   SAssign [(EField (EVar "t") "BrokerIds"); (EVar "err")] [(EMethod (EVar "d") "Int32Array" [])];
   SIf [] (EBin Ne (EVar "err") ENil)
     [SReturn [(EVar "err")]]
     [];
   SReturn [(EVar "err")]].
(** message/messages.gen.go:5549 *)
Definition go_CreateableTopicConfig19_Size : func := mkFunc [("t", GNamed "CreateableTopicConfig19"); ("version", GInt I16)] [GInt I32]
  [SVar "sz" (Some (GInt I32)) None;
   SOp (EVar "sz") Add (ECall "sizeof.String" [(EField (EVar "t") "Name")]);
   SOp (EVar "sz") Add (ECall "sizeof.String" [(EField (EVar "t") "Value")]);
   SReturn [(EVar "sz")]].
(** message/messages.gen.go:5557 *)
Definition go_CreateableTopicConfig19_Encode : func := mkFunc [("t", GNamed "CreateableTopicConfig19"); ("e", GPtr (GNamed "Encoder")); ("version", GInt I16)] []
  [SExpr (EMethod (EVar "e") "PutString" [(EField (EVar "t") "Name")]);
   SExpr (EMethod (EVar "e") "PutString" [(EField (EVar "t") "Value")])].
(** message/messages.gen.go:5563 *)
Definition go_CreateableTopicConfig19_Decode : func := mkFunc [("t", GPtr (GNamed "CreateableTopicConfig19")); ("d", GPtr (GNamed "Decoder")); ("version", GInt I16)] [GNamed "error"]
  [SVar "err" (Some (GNamed "error")) None;
   SAssign [(EField (EVar "t") "Name"); (EVar "err")] [(EMethod (EVar "d") "String" [])];
   SIf [] (EBin Ne (EVar "err") ENil)
     [SReturn [(EVar "err")]]
     [];
   SAssign [(EField (EVar "t") "Value"); (EVar "err")] [(EMethod (EVar "d") "String" [])];
   SIf [] (EBin Ne (EVar "err") ENil)
     [SReturn [(EVar "err")]]
     [];
   SReturn [(EVar "err")]].
(** message/messages.gen.go:5583 *)
Definition go_CreateTopicsResponse_Size : func := mkFunc [("t", GNamed "CreateTopicsResponse"); ("version", GInt I16)] [GInt I32]
  [SVar "sz" (Some (GInt I32)) None;
   SIf [] (EBin Ge (EVar "version") (EInt 2))
     [SOp (EVar "sz") Add (EGlobal "sizeof.Int32")]
     [];
   SOp (EVar "sz") Add (EGlobal "sizeof.ArrayLength");
   SFor [SDefine ["i"] [(EBin Sub (ELen (EField (EVar "t") "Topics")) (EInt 1))]] (EBin Ge (EVar "i") (EInt 0)) [SOp (EVar "i") Sub (EInt 1)]
     [SOp (EVar "sz") Add (EMethod (EIndex (EField (EVar "t") "Topics") (EVar "i")) "Size" [(EVar "version")])];
   SReturn [(EVar "sz")]].
(** message/messages.gen.go:5596 *)
Definition go_CreateTopicsResponse_Encode : func := mkFunc [("t", GNamed "CreateTopicsResponse"); ("e", GPtr (GNamed "Encoder")); ("version", GInt I16)] []
  [SIf [] (EBin Ge (EVar "version") (EInt 2))
     [SExpr (EMethod (EVar "e") "PutInt32" [(EField (EVar "t") "ThrottleTimeMs")])]
     [];
   SDefine ["len1"] [(ELen (EField (EVar "t") "Topics"))];
   SExpr (EMethod (EVar "e") "PutArrayLength" [(EVar "len1")]);
   SFor [SDefine ["i"] [(EInt 0)]] (EBin Lt (EVar "i") (EVar "len1")) [SOp (EVar "i") Add (EInt 1)]
     [SExpr (EMethod (EIndex (EField (EVar "t") "Topics") (EVar "i")) "Encode" [(EVar "e"); (EVar "version")])]].
(** message/messages.gen.go:5609 *)
Definition go_CreateTopicsResponse_Decode : func := mkFunc [("t", GPtr (GNamed "CreateTopicsResponse")); ("d", GPtr (GNamed "Decoder")); ("version", GInt I16)] [GNamed "error"]
  [SVar "err" (Some (GNamed "error")) None;
   SIf [] (EBin Ge (EVar "version") (EInt 2))
     [SAssign [(EField (EVar "t") "ThrottleTimeMs"); (EVar "err")] [(EMethod (EVar "d") "Int32" [])];
      SIf [] (EBin Ne (EVar "err") ENil)
       [SReturn [(EVar "err")]]
       []]
     [];
   SIf [SDefine ["n"; "err"] [(EMethod (EVar "d") "ArrayLength" [])]] (EBin Ne (EVar "err") ENil)
     [SReturn [(EVar "err")]]
     [SIf [] (EBin Ge (EVar "n") (EInt 0))
       [SAssign [(EField (EVar "t") "Topics")] [(EMake (GSlice (GNamed "CreatableTopicResult19")) (EVar "n"))];
        SFor [SDefine ["i"] [(EInt 0)]] (EBin Lt (EVar "i") (EVar "n")) [SOp (EVar "i") Add (EInt 1)]
         [SVar "item" (Some (GNamed "CreatableTopicResult19")) None;
          SIf [SDefine ["err"] [(EMethod (EAddr (EVar "item")) "Decode" [(EVar "d"); (EVar "version")])]] (EBin Ne (EVar "err") ENil)
           [SReturn [(EVar "err")]]
           [];
          SAssign [(EIndex (EField (EVar "t") "Topics") (EVar "i"))] [(EVar "item")]]]
       []];
   SReturn [(EVar "err")]].
(** message/messages.gen.go:5644 *)
Definition go_CreatableTopicResult19_Size : func := mkFunc [("t", GNamed "CreatableTopicResult19"); ("version", GInt I16)] [GInt I32]
  [SVar "sz" (Some (GInt I32)) None;
   SOp (EVar "sz") Add (ECall "sizeof.String" [(EField (EVar "t") "Name")]);
   SOp (EVar "sz") Add (EGlobal "sizeof.Int16");
   SIf [] (EBin Ge (EVar "version") (EInt 1))
     [SOp (EVar "sz") Add (ECall "sizeof.String" [(EField (EVar "t") "ErrorMessage")])]
     [];
   SIf [] (EBin Ge (EVar "version") (EInt 5))
     [SOp (EVar "sz") Add (EGlobal "sizeof.Int16")]
     [];
   SIf [] (EBin Ge (EVar "version") (EInt 5))
     [SOp (EVar "sz") Add (EGlobal "sizeof.Int32")]
     [];
   SIf [] (EBin Ge (EVar "version") (EInt 5))
     [SOp (EVar "sz") Add (EGlobal "sizeof.Int16")]
     [];
   SIf [] (EBin Ge (EVar "version") (EInt 5))
     [SOp (EVar "sz") Add (EGlobal "sizeof.ArrayLength");
      SFor [SDefine ["i"] [(EBin Sub (ELen (EField (EVar "t") "Configs")) (EInt 1))]] (EBin Ge (EVar "i") (EInt 0)) [SOp (EVar "i") Sub (EInt 1)]
       [SOp (EVar "sz") Add (EMethod (EIndex (EField (EVar "t") "Configs") (EVar "i")) "Size" [(EVar "version")])]]
     [];
   SReturn [(EVar "sz")]].
(** message/messages.gen.go:5670 *)
Definition go_CreatableTopicResult19_Encode : func := mkFunc [("t", GNamed "CreatableTopicResult19"); ("e", GPtr (GNamed "Encoder")); ("version", GInt I16)] []
  [SExpr (EMethod (EVar "e") "PutString" [(EField (EVar "t") "Name")]);
   SExpr (EMethod (EVar "e") "PutInt16" [(EField (EVar "t") "ErrorCode")]);
   SIf [] (EBin Ge (EVar "version") (EInt 1))
     [SExpr (EMethod (EVar "e") "PutString" [(EField (EVar "t") "ErrorMessage")])]
     [];
   SIf [] (EBin Ge (EVar "version") (EInt 5))
     [SExpr (EMethod (EVar "e") "PutInt16" [(EField (EVar "t") "TopicConfigErrorCode")])]
     [];
   SIf [] (EBin Ge (EVar "version") (EInt 5))
     [SExpr (EMethod (EVar "e") "PutInt32" [(EField (EVar "t") "NumPartitions")])]
     [];
   SIf [] (EBin Ge (EVar "version") (EInt 5))
     [SExpr (EMethod (EVar "e") "PutInt16" [(EField (EVar "t") "ReplicationFactor")])]
     [];
   SIf [] (EBin Ge (EVar "version") (EInt 5))
     [SDefine ["len6"] [(ELen (EField (EVar "t") "Configs"))];
      SExpr (EMethod (EVar "e") "PutArrayLength" [(EVar "len6")]);
      SFor [SDefine ["i"] [(EInt 0)]] (EBin Lt (EVar "i") (EVar "len6")) [SOp (EVar "i") Add (EInt 1)]
       [SExpr (EMethod (EIndex (EField (EVar "t") "Configs") (EVar "i")) "Encode" [(EVar "e"); (EVar "version")])]]
     []].
(** message/messages.gen.go:5696 *)
Definition go_CreatableTopicResult19_Decode : func := mkFunc [("t", GPtr (GNamed "CreatableTopicResult19")); ("d", GPtr (GNamed "Decoder")); ("version", GInt I16)] [GNamed "error"]
  [SVar "err" (Some (GNamed "error")) None;
   SAssign [(EField (EVar "t") "Name"); (EVar "err")] [(EMethod (EVar "d") "String" [])];
   SIf [] (EBin Ne (EVar "err") ENil)
     [SReturn [(EVar "err")]]
     [];
   SAssign [(EField (EVar "t") "ErrorCode"); (EVar "err")] [(EMethod (EVar "d") "Int16" [])];
   SIf [] (EBin Ne (EVar "err") ENil)
     [SReturn [(EVar "err")]]
     [];
   SIf [] (EBin Ge (EVar "version") (EInt 1))
     [SAssign [(EField (EVar "t") "ErrorMessage"); (EVar "err")] [(EMethod (EVar "d") "String" [])];
      SIf [] (EBin Ne (EVar "err") ENil)
       [SReturn [(EVar "err")]]
       []]
     [];
   SIf [] (EBin Ge (EVar "version") (EInt 5))
     [SAssign [(EField (EVar "t") "TopicConfigErrorCode"); (EVar "err")] [(EMethod (EVar "d") "Int16" [])];
      SIf [] (EBin Ne (EVar "err") ENil)
       [SReturn [(EVar "err")]]
       []]
     [];
   SIf [] (EBin Ge (EVar "version") (EInt 5))
     [SAssign [(EField (EVar "t") "NumPartitions"); (EVar "err")] [(EMethod (EVar "d") "Int32" [])];
      SIf [] (EBin Ne (EVar "err") ENil)
       [SReturn [(EVar "err")]]
       []]
     [];
   SIf [] (EBin Ge (EVar "version") (EInt 5))
     [SAssign [(EField (EVar "t") "ReplicationFactor"); (EVar "err")] [(EMethod (EVar "d") "Int16" [])];
      SIf [] (EBin Ne (EVar "err") ENil)
       [SReturn [(EVar "err")]]
       []]
     [];
   SIf [] (EBin Ge (EVar "version") (EInt 5))
     [SIf [SDefine ["n"; "err"] [(EMethod (EVar "d") "ArrayLength" [])]] (EBin Ne (EVar "err") ENil)
       [SReturn [(EVar "err")]]
       [SIf [] (EBin Ge (EVar "n") (EInt 0))
         [SAssign [(EField (EVar "t") "Configs")] [(EMake (GSlice (GNamed "CreatableTopicConfigs19")) (EVar "n"))];
          SFor [SDefine ["i"] [(EInt 0)]] (EBin Lt (EVar "i") (EVar "n")) [SOp (EVar "i") Add (EInt 1)]
           [SVar "item" (Some (GNamed "CreatableTopicConfigs19")) None;
            SIf [SDefine ["err"] [(EMethod (EAddr (EVar "item")) "Decode" [(EVar "d"); (EVar "version")])]] (EBin Ne (EVar "err") ENil)
             [SReturn [(EVar "err")]]
             [];
            SAssign [(EIndex (EField (EVar "t") "Configs") (EVar "i"))] [(EVar "item")]]]
         []]]
     [];
   SReturn [(EVar "err")]].
(** message/messages.gen.go:5757 *)
Definition go_CreatableTopicConfigs19_Size : func := mkFunc [("t", GNamed "CreatableTopicConfigs19"); ("version", GInt I16)] [GInt I32]
  [SVar "sz" (Some (GInt I32)) None;
   SIf [] (EBin Ge (EVar "version") (EInt 5))
     [SOp (EVar "sz") Add (ECall "sizeof.String" [(EField (EVar "t") "Name")])]
     [];
   SIf [] (EBin Ge (EVar "version") (EInt 5))
     [SOp (EVar "sz") Add (ECall "sizeof.String" [(EField (EVar "t") "Value")])]
     [];
   SIf [] (EBin Ge (EVar "version") (EInt 5))
     [SOp (EVar "sz") Add (EGlobal "sizeof.Bool")]
     [];
   SIf [] (EBin Ge (EVar "version") (EInt 5))
     [SOp (EVar "sz") Add (EGlobal "sizeof.Int8")]
     [];
   SIf [] (EBin Ge (EVar "version") (EInt 5))
     [SOp (EVar "sz") Add (EGlobal "sizeof.Bool")]
     [];
   SReturn [(EVar "sz")]].
(** message/messages.gen.go:5778 *)
Definition go_CreatableTopicConfigs19_Encode : func := mkFunc [("t", GNamed "CreatableTopicConfigs19"); ("e", GPtr (GNamed "Encoder")); ("version", GInt I16)] []
  [SIf [] (EBin Ge (EVar "version") (EInt 5))
     [SExpr (EMethod (EVar "e") "PutString" [(EField (EVar "t") "Name")])]
     [];
   SIf [] (EBin Ge (EVar "version") (EInt 5))
     [SExpr (EMethod (EVar "e") "PutString" [(EField (EVar "t") "Value")])]
     [];
   SIf [] (EBin Ge (EVar "version") (EInt 5))
     [SExpr (EMethod (EVar "e") "PutBool" [(EField (EVar "t") "ReadOnly")])]
     [];
   SIf [] (EBin Ge (EVar "version") (EInt 5))
     [SExpr (EMethod (EVar "e") "PutInt8" [(EField (EVar "t") "ConfigSource")])]
     [];
   SIf [] (EBin Ge (EVar "version") (EInt 5))
     [SExpr (EMethod (EVar "e") "PutBool" [(EField (EVar "t") "IsSensitive")])]
     []].
(** message/messages.gen.go:5797 *)
Definition go_CreatableTopicConfigs19_Decode : func := mkFunc [("t", GPtr (GNamed "CreatableTopicConfigs19")); ("d", GPtr (GNamed "Decoder")); ("version", GInt I16)] [GNamed "error"]
  [SVar "err" (Some (GNamed "error")) None;
   SIf [] (EBin Ge (EVar "version") (EInt 5))
     [SAssign [(EField (EVar "t") "Name"); (EVar "err")] [(EMethod (EVar "d") "String" [])];
      SIf [] (EBin Ne (EVar "err") ENil)
       [SReturn [(EVar "err")]]
       []]
     [];
   SIf [] (EBin Ge (EVar "version") (EInt 5))
     [SAssign [(EField (EVar "t") "Value"); (EVar "err")] [(EMethod (EVar "d") "String" [])];
      SIf [] (EBin Ne (EVar "err") ENil)
       [SReturn [(EVar "err")]]
       []]
     [];
   SIf [] (EBin Ge (EVar "version") (EInt 5))
     [SAssign [(EField (EVar "t") "ReadOnly"); (EVar "err")] [(EMethod (EVar "d") "Bool" [])];
      SIf [] (EBin Ne (EVar "err") ENil)
       [SReturn [(EVar "err")]]
       []]
     [];
   SIf [] (EBin Ge (EVar "version") (EInt 5))
     [SAssign [(EField (EVar "t") "ConfigSource"); (EVar "err")] [(EMethod (EVar "d") "Int8" [])];
      SIf [] (EBin Ne (EVar "err") ENil)
       [SReturn [(EVar "err")]]
       []]
     [];
   SIf [] (EBin Ge (EVar "version") (EInt 5))
     [SAssign [(EField (EVar "t") "IsSensitive"); (EVar "err")] [(EMethod (EVar "d") "Bool" [])];
      SIf [] (EBin Ne (EVar "err") ENil)
       [SReturn [(EVar "err")]]
       []]
     [];
   SReturn [(EVar "err")]].
(** message/messages.gen.go:5839 *)
Definition go_DeleteTopicsRequest_Size : func := mkFunc [("t", GNamed "DeleteTopicsRequest"); ("version", GInt I16)] [GInt I32]
  [SVar "sz" (Some (GInt I32)) None;
   SOp (EVar "sz") Add (ECall "sizeof.StringArray" [(EField (EVar "t") "TopicNames")]);
   SOp (EVar "sz") Add (EGlobal "sizeof.Int32");
   SReturn [(EVar "sz")]].
(** message/messages.gen.go:5847 *)
Definition go_DeleteTopicsRequest_Encode : func := mkFunc [("t", GNamed "DeleteTopicsRequest"); ("e", GPtr (GNamed "Encoder")); ("version", GInt I16)] []
  [SExpr (EMethod (EVar "e") "PutStringArray" [(EField (EVar "t") "TopicNames")]);
   SExpr (EMethod (EVar "e") "PutInt32" [(EField (EVar "t") "TimeoutMs")])].
(** message/messages.gen.go:5853 *)
Definition go_DeleteTopicsRequest_Decode : func := mkFunc [("t", GPtr (GNamed "DeleteTopicsRequest")); ("d", GPtr (GNamed "Decoder")); ("version", GInt I16)] [GNamed "error"]
  [SVar "err" (Some (GNamed "error")) None;
   SAssign [(EField (EVar "t") "TopicNames"); (EVar "err")] [(EMethod (EVar "d") "StringArray" [])];
   SIf [] (EBin Ne (EVar "err") ENil)
     [SReturn [(EVar "err")]]
     [];
   SAssign [(EField (EVar "t") "TimeoutMs"); (EVar "err")] [(EMethod (EVar "d") "Int32" [])];
   SIf [] (EBin Ne (EVar "err") ENil)
     [SReturn [(EVar "err")]]
     [];
   SReturn [(EVar "err")]].
(** message/messages.gen.go:5873 *)
Definition go_DeleteTopicsResponse_Size : func := mkFunc [("t", GNamed "DeleteTopicsResponse"); ("version", GInt I16)] [GInt I32]
  [SVar "sz" (Some (GInt I32)) None;
   SIf [] (EBin Ge (EVar "version") (EInt 1))
     [SOp (EVar "sz") Add (EGlobal "sizeof.Int32")]
     [];
   SOp (EVar "sz") Add (EGlobal "sizeof.ArrayLength");
   SFor [SDefine ["i"] [(EBin Sub (ELen (EField (EVar "t") "Responses")) (EInt 1))]] (EBin Ge (EVar "i") (EInt 0)) [SOp (EVar "i") Sub (EInt 1)]
     [SOp (EVar "sz") Add (EMethod (EIndex (EField (EVar "t") "Responses") (EVar "i")) "Size" [(EVar "version")])];
   SReturn [(EVar "sz")]].
(** message/messages.gen.go:5886 *)
Definition go_DeleteTopicsResponse_Encode : func := mkFunc [("t", GNamed "DeleteTopicsResponse"); ("e", GPtr (GNamed "Encoder")); ("version", GInt I16)] []
  [SIf [] (EBin Ge (EVar "version") (EInt 1))
     [SExpr (EMethod (EVar "e") "PutInt32" [(EField (EVar "t") "ThrottleTimeMs")])]
     [];
   SDefine ["len1"] [(ELen (EField (EVar "t") "Responses"))];
   SExpr (EMethod (EVar "e") "PutArrayLength" [(EVar "len1")]);
   SFor [SDefine ["i"] [(EInt 0)]] (EBin Lt (EVar "i") (EVar "len1")) [SOp (EVar "i") Add (EInt 1)]
     [SExpr (EMethod (EIndex (EField (EVar "t") "Responses") (EVar "i")) "Encode" [(EVar "e"); (EVar "version")])]].
(** message/messages.gen.go:5899 *)
Definition go_DeleteTopicsResponse_Decode : func := mkFunc [("t", GPtr (GNamed "DeleteTopicsResponse")); ("d", GPtr (GNamed "Decoder")); ("version", GInt I16)] [GNamed "error"]
  [SVar "err" (Some (GNamed "error")) None;
   SIf [] (EBin Ge (EVar "version") (EInt 1))
     [SAssign [(EField (EVar "t") "ThrottleTimeMs"); (EVar "err")] [(EMethod (EVar "d") "Int32" [])];
      SIf [] (EBin Ne (EVar "err") ENil)
       [SReturn [(EVar "err")]]
       []]
     [];
   SIf [SDefine ["n"; "err"] [(EMethod (EVar "d") "ArrayLength" [])]] (EBin Ne (EVar "err") ENil)
     [SReturn [(EVar "err")]]
     [SIf [] (EBin Ge (EVar "n") (EInt 0))
       [SAssign [(EField (EVar "t") "Responses")] [(EMake (GSlice (GNamed "DeletableTopicResult20")) (EVar "n"))];
        SFor [SDefine ["i"] [(EInt 0)]] (EBin Lt (EVar "i") (EVar "n")) [SOp (EVar "i") Add (EInt 1)]
         [SVar "item" (Some (GNamed "DeletableTopicResult20")) None;
          SIf [SDefine ["err"] [(EMethod (EAddr (EVar "item")) "Decode" [(EVar "d"); (EVar "version")])]] (EBin Ne (EVar "err") ENil)
           [SReturn [(EVar "err")]]
           [];
          SAssign [(EIndex (EField (EVar "t") "Responses") (EVar "i"))] [(EVar "item")]]]
       []];
   SReturn [(EVar "err")]].
(** message/messages.gen.go:5929 *)
Definition go_DeletableTopicResult20_Size : func := mkFunc [("t", GNamed "DeletableTopicResult20"); ("version", GInt I16)] [GInt I32]
  [SVar "sz" (Some (GInt I32)) None;
   SOp (EVar "sz") Add (ECall "sizeof.String" [(EField (EVar "t") "Name")]);
   SOp (EVar "sz") Add (EGlobal "sizeof.Int16");
   SReturn [(EVar "sz")]].
(** message/messages.gen.go:5937 *)
Definition go_DeletableTopicResult20_Encode : func := mkFunc [("t", GNamed "DeletableTopicResult20"); ("e", GPtr (GNamed "Encoder")); ("version", GInt I16)] []
  [SExpr (EMethod (EVar "e") "PutString" [(EField (EVar "t") "Name")]);
   SExpr (EMethod (EVar "e") "PutInt16" [(EField (EVar "t") "ErrorCode")])].
(** message/messages.gen.go:5943 *)
Definition go_DeletableTopicResult20_Decode : func := mkFunc [("t", GPtr (GNamed "DeletableTopicResult20")); ("d", GPtr (GNamed "Decoder")); ("version", GInt I16)] [GNamed "error"]
  [SVar "err" (Some (GNamed "error")) None;
   SAssign [(EField (EVar "t") "Name"); (EVar "err")] [(EMethod (EVar "d") "String" [])];
   SIf [] (EBin Ne (EVar "err") ENil)
     [SReturn [(EVar "err")]]
     [];
   SAssign [(EField (EVar "t") "ErrorCode"); (EVar "err")] [(EMethod (EVar "d") "Int16" [])];
   SIf [] (EBin Ne (EVar "err") ENil)
     [SReturn [(EVar "err")]]
     [];
   SReturn [(EVar "err")]].
(** message/messages.gen.go:5963 *)
Definition go_DeleteRecordsRequest_Size : func := mkFunc [("t", GNamed "DeleteRecordsRequest"); ("version", GInt I16)] [GInt I32]
  [SVar "sz" (Some (GInt I32)) None;
   SOp (EVar "sz") Add (EGlobal "sizeof.ArrayLength");
   SFor [SDefine ["i"] [(EBin Sub (ELen (EField (EVar "t") "Topics")) (EInt 1))]] (EBin Ge (EVar "i") (EInt 0)) [SOp (EVar "i") Sub (EInt 1)]
     [SOp (EVar "sz") Add (EMethod (EIndex (EField (EVar "t") "Topics") (EVar "i")) "Size" [(EVar "version")])];
   SOp (EVar "sz") Add (EGlobal "sizeof.Int32");
   SReturn [(EVar "sz")]].
(** message/messages.gen.go:5974 *)
Definition go_DeleteRecordsRequest_Encode : func := mkFunc [("t", GNamed "DeleteRecordsRequest"); ("e", GPtr (GNamed "Encoder")); ("version", GInt I16)] []
  [SDefine ["len0"] [(ELen (EField (EVar "t") "Topics"))];
   SExpr (EMethod (EVar "e") "PutArrayLength" [(EVar "len0")]);
   SFor [SDefine ["i"] [(EInt 0)]] (EBin Lt (EVar "i") (EVar "len0")) [SOp (EVar "i") Add (EInt 1)]
     [SExpr (EMethod (EIndex (EField (EVar "t") "Topics") (EVar "i")) "Encode" [(EVar "e"); (EVar "version")])];
   SExpr (EMethod (EVar "e") "PutInt32" [(EField (EVar "t") "TimeoutMs")])].
(** message/messages.gen.go:5985 *)
Definition go_DeleteRecordsRequest_Decode : func := mkFunc [("t", GPtr (GNamed "DeleteRecordsRequest")); ("d", GPtr (GNamed "Decoder")); ("version", GInt I16)] [GNamed "error"]
  [SVar "err" (Some (GNamed "error")) None;
   SIf [SDefine ["n"; "err"] [(EMethod (EVar "d") "ArrayLength" [])]] (EBin Ne (EVar "err") ENil)
     [SReturn [(EVar "err")]]
     [SIf [] (EBin Ge (EVar "n") (EInt 0))
       [SAssign [(EField (EVar "t") "Topics")] [(EMake (GSlice (GNamed "DeleteRecordsTopic21")) (EVar "n"))];
        SFor [SDefine ["i"] [(EInt 0)]] (EBin Lt (EVar "i") (EVar "n")) [SOp (EVar "i") Add (EInt 1)]
         [SVar "item" (Some (GNamed "DeleteRecordsTopic21")) None;
          SIf [SDefine ["err"] [(EMethod (EAddr (EVar "item")) "Decode" [(EVar "d"); (EVar "version")])]] (EBin Ne (EVar "err") ENil)
           [SReturn [(EVar "err")]]
           [];
          SAssign [(EIndex (EField (EVar "t") "Topics") (EVar "i"))] [(EVar "item")]]]
       []];
   SAssign [(EField (EVar "t") "TimeoutMs"); (EVar "err")] [(EMethod (EVar "d") "Int32" [])];
   SIf [] (EBin Ne (EVar "err") ENil)
     [SReturn [(EVar "err")]]
     [];
   SReturn [(EVar "err")]].
(** message/messages.gen.go:6013 *)
Definition go_DeleteRecordsTopic21_Size : func := mkFunc [("t", GNamed "DeleteRecordsTopic21"); ("version", GInt I16)] [GInt I32]
  [SVar "sz" (Some (GInt I32)) None;
   SOp (EVar "sz") Add (ECall "sizeof.String" [(EField (EVar "t") "Name")]);
   SOp (EVar "sz") Add (EGlobal "sizeof.ArrayLength");
   SFor [SDefine ["i"] [(EBin Sub (ELen (EField (EVar "t") "Partitions")) (EInt 1))]] (EBin Ge (EVar "i") (EInt 0)) [SOp (EVar "i") Sub (EInt 1)]
     [SOp (EVar "sz") Add (EMethod (EIndex (EField (EVar "t") "Partitions") (EVar "i")) "Size" [(EVar "version")])];
   SReturn [(EVar "sz")]].
(** message/messages.gen.go:6024 *)
Definition go_DeleteRecordsTopic21_Encode : func := mkFunc [("t", GNamed "DeleteRecordsTopic21"); ("e", GPtr (GNamed "Encoder")); ("version", GInt I16)] []
  [SExpr (EMethod (EVar "e") "PutString" [(EField (EVar "t") "Name")]);
   SDefine ["len1"] [(ELen (EField (EVar "t") "Partitions"))];
   SExpr (EMethod (EVar "e") "PutArrayLength" [(EVar "len1")]);
   SFor [SDefine ["i"] [(EInt 0)]] (EBin Lt (EVar "i") (EVar "len1")) [SOp (EVar "i") Add (EInt 1)]
     [SExpr (EMethod (EIndex (EField (EVar "t") "Partitions") (EVar "i")) "Encode" [(EVar "e"); (EVar "version")])]].
(** message/messages.gen.go:6035 *)
Definition go_DeleteRecordsTopic21_Decode : func := mkFunc [("t", GPtr (GNamed "DeleteRecordsTopic21")); ("d", GPtr (GNamed "Decoder")); ("version", GInt I16)] [GNamed "error"]
  [SVar "err" (Some (GNamed "error")) None;
   SAssign [(EField (EVar "t") "Name"); (EVar "err")] [(EMethod (EVar "d") "String" [])];
   SIf [] (EBin Ne (EVar "err") ENil)
     [SReturn [(EVar "err")]]
     [];
   SIf [SDefine ["n"; "err"] [(EMethod (EVar "d") "ArrayLength" [])]] (EBin Ne (EVar "err") ENil)
     [SReturn [(EVar "err")]]
     [SIf [] (EBin Ge (EVar "n") (EInt 0))
       [SAssign [(EField (EVar "t") "Partitions")] [(EMake (GSlice (GNamed "DeleteRecordsPartition21")) (EVar "n"))];
        SFor [SDefine ["i"] [(EInt 0)]] (EBin Lt (EVar "i") (EVar "n")) [SOp (EVar "i") Add (EInt 1)]
         [SVar "item" (Some (GNamed "DeleteRecordsPartition21")) None;
          SIf [SDefine ["err"] [(EMethod (EAddr (EVar "item")) "Decode" [(EVar "d"); (EVar "version")])]] (EBin Ne (EVar "err") ENil)
           [SReturn [(EVar "err")]]
           [];
          SAssign [(EIndex (EField (EVar "t") "Partitions") (EVar "i"))] [(EVar "item")]]]
       []];
   SReturn [(EVar "err")]].
(** message/messages.gen.go:6063 *)
Definition go_DeleteRecordsPartition21_Size : func := mkFunc [("t", GNamed "DeleteRecordsPartition21"); ("version", GInt I16)] [GInt I32]
  [SVar "sz" (Some (GInt I32)) None;
   SOp (EVar "sz") Add (EGlobal "sizeof.Int32");
   SOp (EVar "sz") Add (EGlobal "sizeof.Int64");
   SReturn [(EVar "sz")]].
(** message/messages.gen.go:6071 *)
Definition go_DeleteRecordsPartition21_Encode : func := mkFunc [("t", GNamed "DeleteRecordsPartition21"); ("e", GPtr (GNamed "Encoder")); ("version", GInt I16)] []
  [SExpr (EMethod (EVar "e") "PutInt32" [(EField (EVar "t") "PartitionIndex")]);
   SExpr (EMethod (EVar "e") "PutInt64" [(EField (EVar "t") "Offset")])].
(** message/messages.gen.go:6077 *)
Definition go_DeleteRecordsPartition21_Decode : func := mkFunc [("t", GPtr (GNamed "DeleteRecordsPartition21")); ("d", GPtr (GNamed "Decoder")); ("version", GInt I16)] [GNamed "error"]
  [SVar "err" (Some (GNamed "error")) None;
   SAssign [(EField (EVar "t") "PartitionIndex"); (EVar "err")] [(EMethod (EVar "d") "Int32" [])];
   SIf [] (EBin Ne (EVar "err") ENil)
     [SReturn [(EVar "err")]]
     [];
   SAssign [(EField (EVar "t") "Offset"); (EVar "err")] [(EMethod (EVar "d") "Int64" [])];
   SIf [] (EBin Ne (EVar "err") ENil)
     [SReturn [(EVar "err")]]
     [];
   SReturn [(EVar "err")]].
(** message/messages.gen.go:6097 *)
Definition go_DeleteRecordsResponse_Size : func := mkFunc [("t", GNamed "DeleteRecordsResponse"); ("version", GInt I16)] [GInt I32]
  [SVar "sz" (Some (GInt I32)) None;
   SOp (EVar "sz") Add (EGlobal "sizeof.Int32");
   SOp (EVar "sz") Add (EGlobal "sizeof.ArrayLength");
   SFor [SDefine ["i"] [(EBin Sub (ELen (EField (EVar "t") "Topics")) (EInt 1))]] (EBin Ge (EVar "i") (EInt 0)) [SOp (EVar "i") Sub (EInt 1)]
     [SOp (EVar "sz") Add (EMethod (EIndex (EField (EVar "t") "Topics") (EVar "i")) "Size" [(EVar "version")])];
   SReturn [(EVar "sz")]].
(** message/messages.gen.go:6108 *)
Definition go_DeleteRecordsResponse_Encode : func := mkFunc [("t", GNamed "DeleteRecordsResponse"); ("e", GPtr (GNamed "Encoder")); ("version", GInt I16)] []
  [SExpr (EMethod (EVar "e") "PutInt32" [(EField (EVar "t") "ThrottleTimeMs")]);
   SDefine ["len1"] [(ELen (EField (EVar "t") "Topics"))];
   SExpr (EMethod (EVar "e") "PutArrayLength" [(EVar "len1")]);
   SFor [SDefine ["i"] [(EInt 0)]] (EBin Lt (EVar "i") (EVar "len1")) [SOp (EVar "i") Add (EInt 1)]
     [SExpr (EMethod (EIndex (EField (EVar "t") "Topics") (EVar "i")) "Encode" [(EVar "e"); (EVar "version")])]].
(** message/messages.gen.go:6119 *)
Definition go_DeleteRecordsResponse_Decode : func := mkFunc [("t", GPtr (GNamed "DeleteRecordsResponse")); ("d", GPtr (GNamed "Decoder")); ("version", GInt I16)] [GNamed "error"]
  [SVar "err" (Some (GNamed "error")) None;
   SAssign [(EField (EVar "t") "ThrottleTimeMs"); (EVar "err")] [(EMethod (EVar "d") "Int32" [])];
   SIf [] (EBin Ne (EVar "err") ENil)
     [SReturn [(EVar "err")]]
     [];
   SIf [SDefine ["n"; "err"] [(EMethod (EVar "d") "ArrayLength" [])]] (EBin Ne (EVar "err") ENil)
     [SReturn [(EVar "err")]]
     [SIf [] (EBin Ge (EVar "n") (EInt 0))
       [SAssign [(EField (EVar "t") "Topics")] [(EMake (GSlice (GNamed "DeleteRecordsTopicResult21")) (EVar "n"))];
        SFor [SDefine ["i"] [(EInt 0)]] (EBin Lt (EVar "i") (EVar "n")) [SOp (EVar "i") Add (EInt 1)]
         [SVar "item" (Some (GNamed "DeleteRecordsTopicResult21")) None;
          SIf [SDefine ["err"] [(EMethod (EAddr (EVar "item")) "Decode" [(EVar "d"); (EVar "version")])]] (EBin Ne (EVar "err") ENil)
           [SReturn [(EVar "err")]]
           [];
          SAssign [(EIndex (EField (EVar "t") "Topics") (EVar "i"))] [(EVar "item")]]]
       []];
   SReturn [(EVar "err")]].
(** message/messages.gen.go:6147 *)
Definition go_DeleteRecordsTopicResult21_Size : func := mkFunc [("t", GNamed "DeleteRecordsTopicResult21"); ("version", GInt I16)] [GInt I32]
  [SVar "sz" (Some (GInt I32)) None;
   SOp (EVar "sz") Add (ECall "sizeof.String" [(EField (EVar "t") "Name")]);
   SOp (EVar "sz") Add (EGlobal "sizeof.ArrayLength");
   SFor [SDefine ["i"] [(EBin Sub (ELen (EField (EVar "t") "Partitions")) (EInt 1))]] (EBin Ge (EVar "i") (EInt 0)) [SOp (EVar "i") Sub (EInt 1)]
     [SOp (EVar "sz") Add (EMethod (EIndex (EField (EVar "t") "Partitions") (EVar "i")) "Size" [(EVar "version")])];
   SReturn [(EVar "sz")]].
(** message/messages.gen.go:6158 *)
Definition go_DeleteRecordsTopicResult21_Encode : func := mkFunc [("t", GNamed "DeleteRecordsTopicResult21"); ("e", GPtr (GNamed "Encoder")); ("version", GInt I16)] []
  [SExpr (EMethod (EVar "e") "PutString" [(EField (EVar "t") "Name")]);
   SDefine ["len1"] [(ELen (EField (EVar "t") "Partitions"))];
   SExpr (EMethod (EVar "e") "PutArrayLength" [(EVar "len1")]);
   SFor [SDefine ["i"] [(EInt 0)]] (EBin Lt (EVar "i") (EVar "len1")) [SOp (EVar "i") Add (EInt 1)]
     [SExpr (EMethod (EIndex (EField (EVar "t") "Partitions") (EVar "i")) "Encode" [(EVar "e"); (EVar "version")])]].
(** message/messages.gen.go:6169 *)
Definition go_DeleteRecordsTopicResult21_Decode : func := mkFunc [("t", GPtr (GNamed "DeleteRecordsTopicResult21")); ("d", GPtr (GNamed "Decoder")); ("version", GInt I16)] [GNamed "error"]
  [SVar "err" (Some (GNamed "error")) None;
   SAssign [(EField (EVar "t") "Name"); (EVar "err")] [(EMethod (EVar "d") "String" [])];
   SIf [] (EBin Ne (EVar "err") ENil)
     [SReturn [(EVar "err")]]
     [];
   SIf [SDefine ["n"; "err"] [(EMethod (EVar "d") "ArrayLength" [])]] (EBin Ne (EVar "err") ENil)
     [SReturn [(EVar "err")]]
     [SIf [] (EBin Ge (EVar "n") (EInt 0))
       [SAssign [(EField (EVar "t") "Partitions")] [(EMake (GSlice (GNamed "DeleteRecordsPartitionResult21")) (EVar "n"))];
        SFor [SDefine ["i"] [(EInt 0)]] (EBin Lt (EVar "i") (EVar "n")) [SOp (EVar "i") Add (EInt 1)]
         [SVar "item" (Some (GNamed "DeleteRecordsPartitionResult21")) None;
          SIf [SDefine ["err"] [(EMethod (EAddr (EVar "item")) "Decode" [(EVar "d"); (EVar "version")])]] (EBin Ne (EVar "err") ENil)
           [SReturn [(EVar "err")]]
           [];
          SAssign [(EIndex (EField (EVar "t") "Partitions") (EVar "i"))] [(EVar "item")]]]
       []];
   SReturn [(EVar "err")]].
(** message/messages.gen.go:6198 *)
Definition go_DeleteRecordsPartitionResult21_Size : func := mkFunc [("t", GNamed "DeleteRecordsPartitionResult21"); ("version", GInt I16)] [GInt I32]
  [SVar "sz" (Some (GInt I32)) None;
   SOp (EVar "sz") Add (EGlobal "sizeof.Int32");
   SOp (EVar "sz") Add (EGlobal "sizeof.Int64");
   SOp (EVar "sz") Add (EGlobal "sizeof.Int16");
   SReturn [(EVar "sz")]].
(** message/messages.gen.go:6207 *)
Definition go_DeleteRecordsPartitionResult21_Encode : func := mkFunc [("t", GNamed "DeleteRecordsPartitionResult21"); ("e", GPtr (GNamed "Encoder")); ("version", GInt I16)] []
  [SExpr (EMethod (EVar "e") "PutInt32" [(EField (EVar "t") "PartitionIndex")]);
   SExpr (EMethod (EVar "e") "PutInt64" [(EField (EVar "t") "LowWatermark")]);
   SExpr (EMethod (EVar "e") "PutInt16" [(EField (EVar "t") "ErrorCode")])].
(** message/messages.gen.go:6214 *)
Definition go_DeleteRecordsPartitionResult21_Decode : func := mkFunc [("t", GPtr (GNamed "DeleteRecordsPartitionResult21")); ("d", GPtr (GNamed "Decoder")); ("version", GInt I16)] [GNamed "error"]
  [SVar "err" (Some (GNamed "error")) None;
   SAssign [(EField (EVar "t") "PartitionIndex"); (EVar "err")] [(EMethod (EVar "d") "Int32" [])];
   SIf [] (EBin Ne (EVar "err") ENil)
     [SReturn [(EVar "err")]]
     [];
   SAssign [(EField (EVar "t") "LowWatermark"); (EVar "err")] [(EMethod (EVar "d") "Int64" [])];
   SIf [] (EBin Ne (EVar "err") ENil)
     [SReturn [(EVar "err")]]
     [];
   SAssign [(EField (EVar "t") "ErrorCode"); (EVar "err")] [(EMethod (EVar "d") "Int16" [])];
   SIf [] (EBin Ne (EVar "err") ENil)
     [SReturn [(EVar "err")]]
     [];
   SReturn [(EVar "err")]].
(** message/messages.gen.go:6238 *)
Definition go_InitProducerIdRequest_Size : func := mkFunc [("t", GNamed "InitProducerIdRequest"); ("version", GInt I16)] [GInt I32]
  [SVar "sz" (Some (GInt I32)) None;
   SOp (EVar "sz") Add (ECall "sizeof.String" [(EField (EVar "t") "TransactionalId")]);
   SOp (EVar "sz") Add (EGlobal "sizeof.Int32");
   SReturn [(EVar "sz")]].
(** message/messages.gen.go:6246 *)
Definition go_InitProducerIdRequest_Encode : func := mkFunc [("t", GNamed "InitProducerIdRequest"); ("e", GPtr (GNamed "Encoder")); ("version", GInt I16)] []
  [SExpr (EMethod (EVar "e") "PutString" [(EField (EVar "t") "TransactionalId")]);
   SExpr (EMethod (EVar "e") "PutInt32" [(EField (EVar "t") "TransactionTimeoutMs")])].
(** message/messages.gen.go:6252 *)
Definition go_InitProducerIdRequest_Decode : func := mkFunc [("t", GPtr (GNamed "InitProducerIdRequest")); ("d", GPtr (GNamed "Decoder")); ("version", GInt I16)] [GNamed "error"]
  [SVar "err" (Some (GNamed "error")) None;
   SAssign [(EField (EVar "t") "TransactionalId"); (EVar "err")] [(EMethod (EVar "d") "String" [])];
   SIf [] (EBin Ne (EVar "err") ENil)
     [SReturn [(EVar "err")]]
     [];
   SAssign [(EField (EVar "t") "TransactionTimeoutMs"); (EVar "err")] [(EMethod (EVar "d") "Int32" [])];
   SIf [] (EBin Ne (EVar "err") ENil)
     [SReturn [(EVar "err")]]
     [];
   SReturn [(EVar "err")]].
(** message/messages.gen.go:6274 *)
Definition go_InitProducerIdResponse_Size : func := mkFunc [("t", GNamed "InitProducerIdResponse"); ("version", GInt I16)] [GInt I32]
  [SVar "sz" (Some (GInt I32)) None;
   SOp (EVar "sz") Add (EGlobal "sizeof.Int32");
   SOp (EVar "sz") Add (EGlobal "sizeof.Int16");
   SOp (EVar "sz") Add (EGlobal "sizeof.Int64");
   SOp (EVar "sz") Add (EGlobal "sizeof.Int16");
   SReturn [(EVar "sz")]].
(** message/messages.gen.go:6284 *)
Definition go_InitProducerIdResponse_Encode : func := mkFunc [("t", GNamed "InitProducerIdResponse"); ("e", GPtr (GNamed "Encoder")); ("version", GInt I16)] []
  [SExpr (EMethod (EVar "e") "PutInt32" [(EField (EVar "t") "ThrottleTimeMs")]);
   SExpr (EMethod (EVar "e") "PutInt16" [(EField (EVar "t") "ErrorCode")]);
   SExpr (EMethod (EVar "e") "PutInt64" [(EField (EVar "t") "ProducerId")]);
   SExpr (EMethod (EVar "e") "PutInt16" [(EField (EVar "t") "ProducerEpoch")])].
(** message/messages.gen.go:6292 *)
Definition go_InitProducerIdResponse_Decode : func := mkFunc [("t", GPtr (GNamed "InitProducerIdResponse")); ("d", GPtr (GNamed "Decoder")); ("version", GInt I16)] [GNamed "error"]
  [SVar "err" (Some (GNamed "error")) None;
   SAssign [(EField (EVar "t") "ThrottleTimeMs"); (EVar "err")] [(EMethod (EVar "d") "Int32" [])];
   SIf [] (EBin Ne (EVar "err") ENil)
     [SReturn [(EVar "err")]]
     [];
   SAssign [(EField (EVar "t") "ErrorCode"); (EVar "err")] [(EMethod (EVar "d") "Int16" [])];
   SIf [] (EBin Ne (EVar "err") ENil)
     [SReturn [(EVar "err")]]
     [];
   SAssign [(EField (EVar "t") "ProducerId"); (EVar "err")] [(EMethod (EVar "d") "Int64" [])];
   SIf [] (EBin Ne (EVar "err") ENil)
     [SReturn [(EVar "err")]]
     [];
   SAssign [(EField (EVar "t") "ProducerEpoch"); (EVar "err")] [(EMethod (EVar "d") "Int16" [])];
   SIf [] (EBin Ne (EVar "err") ENil)
     [SReturn [(EVar "err")]]
     [];
   SReturn [(EVar "err")]].
(** message/messages.gen.go:6320 *)
Definition go_OffsetForLeaderEpochRequest_Size : func := mkFunc [("t", GNamed "OffsetForLeaderEpochRequest"); ("version", GInt I16)] [GInt I32]
  [SVar "sz" (Some (GInt I32)) None;
   SIf [] (EBin Ge (EVar "version") (EInt 3))
     [SOp (EVar "sz") Add (EGlobal "sizeof.Int32")]
     [];
   SOp (EVar "sz") Add (EGlobal "sizeof.ArrayLength");
   SFor [SDefine ["i"] [(EBin Sub (ELen (EField (EVar "t") "Topics")) (EInt 1))]] (EBin Ge (EVar "i") (EInt 0)) [SOp (EVar "i") Sub (EInt 1)]
     [SOp (EVar "sz") Add (EMethod (EIndex (EField (EVar "t") "Topics") (EVar "i")) "Size" [(EVar "version")])];
   SReturn [(EVar "sz")]].
(** message/messages.gen.go:6333 *)
Definition go_OffsetForLeaderEpochRequest_Encode : func := mkFunc [("t", GNamed "OffsetForLeaderEpochRequest"); ("e", GPtr (GNamed "Encoder")); ("version", GInt I16)] []
  [SIf [] (EBin Ge (EVar "version") (EInt 3))
     [SExpr (EMethod (EVar "e") "PutInt32" [(EField (EVar "t") "ReplicaId")])]
     [];
   SDefine ["len1"] [(ELen (EField (EVar "t") "Topics"))];
   SExpr (EMethod (EVar "e") "PutArrayLength" [(EVar "len1")]);
   SFor [SDefine ["i"] [(EInt 0)]] (EBin Lt (EVar "i") (EVar "len1")) [SOp (EVar "i") Add (EInt 1)]
     [SExpr (EMethod (EIndex (EField (EVar "t") "Topics") (EVar "i")) "Encode" [(EVar "e"); (EVar "version")])]].
(** message/messages.gen.go:6346 *)
Definition go_OffsetForLeaderEpochRequest_Decode : func := mkFunc [("t", GPtr (GNamed "OffsetForLeaderEpochRequest")); ("d", GPtr (GNamed "Decoder")); ("version", GInt I16)] [GNamed "error"]
  [SVar "err" (Some (GNamed "error")) None;
   SIf [] (EBin Ge (EVar "version") (EInt 3))
     [SAssign [(EField (EVar "t") "ReplicaId"); (EVar "err")] [(EMethod (EVar "d") "Int32" [])];
      SIf [] (EBin Ne (EVar "err") ENil)
       [SReturn [(EVar "err")]]
       []]
     [];
   SIf [SDefine ["n"; "err"] [(EMethod (EVar "d") "ArrayLength" [])]] (EBin Ne (EVar "err") ENil)
     [SReturn [(EVar "err")]]
     [SIf [] (EBin Ge (EVar "n") (EInt 0))
       [SAssign [(EField (EVar "t") "Topics")] [(EMake (GSlice (GNamed "OffsetForLeaderTopic23")) (EVar "n"))];
        SFor [SDefine ["i"] [(EInt 0)]] (EBin Lt (EVar "i") (EVar "n")) [SOp (EVar "i") Add (EInt 1)]
         [SVar "item" (Some (GNamed "OffsetForLeaderTopic23")) None;
          SIf [SDefine ["err"] [(EMethod (EAddr (EVar "item")) "Decode" [(EVar "d"); (EVar "version")])]] (EBin Ne (EVar "err") ENil)
           [SReturn [(EVar "err")]]
           [];
          SAssign [(EIndex (EField (EVar "t") "Topics") (EVar "i"))] [(EVar "item")]]]
       []];
   SReturn [(EVar "err")]].
(** message/messages.gen.go:6376 *)
Definition go_OffsetForLeaderTopic23_Size : func := mkFunc [("t", GNamed "OffsetForLeaderTopic23"); ("version", GInt I16)] [GInt I32]
  [SVar "sz" (Some (GInt I32)) None;
   SOp (EVar "sz") Add (ECall "sizeof.String" [(EField (EVar "t") "Name")]);
   SOp (EVar "sz") Add (EGlobal "sizeof.ArrayLength");
   SFor [SDefine ["i"] [(EBin Sub (ELen (EField (EVar "t") "Partitions")) (EInt 1))]] (EBin Ge (EVar "i") (EInt 0)) [SOp (EVar "i") Sub (EInt 1)]
     [SOp (EVar "sz") Add (EMethod (EIndex (EField (EVar "t") "Partitions") (EVar "i")) "Size" [(EVar "version")])];
   SReturn [(EVar "sz")]].
(** message/messages.gen.go:6387 *)
Definition go_OffsetForLeaderTopic23_Encode : func := mkFunc [("t", GNamed "OffsetForLeaderTopic23"); ("e", GPtr (GNamed "Encoder")); ("version", GInt I16)] []
  [SExpr (EMethod (EVar "e") "PutString" [(EField (EVar "t") "Name")]);
   SDefine ["len1"] [(ELen (EField (EVar "t") "Partitions"))];
   SExpr (EMethod (EVar "e") "PutArrayLength" [(EVar "len1")]);
   SFor [SDefine ["i"] [(EInt 0)]] (EBin Lt (EVar "i") (EVar "len1")) [SOp (EVar "i") Add (EInt 1)]
     [SExpr (EMethod (EIndex (EField (EVar "t") "Partitions") (EVar "i")) "Encode" [(EVar "e"); (EVar "version")])]].
(** message/messages.gen.go:6398 *)
Definition go_OffsetForLeaderTopic23_Decode : func := mkFunc [("t", GPtr (GNamed "OffsetForLeaderTopic23")); ("d", GPtr (GNamed "Decoder")); ("version", GInt I16)] [GNamed "error"]
  [SVar "err" (Some (GNamed "error")) None;
   SAssign [(EField (EVar "t") "Name"); (EVar "err")] [(EMethod (EVar "d") "String" [])];
   SIf [] (EBin Ne (EVar "err") ENil)
     [SReturn [(EVar "err")]]
     [];
   SIf [SDefine ["n"; "err"] [(EMethod (EVar "d") "ArrayLength" [])]] (EBin Ne (EVar "err") ENil)
     [SReturn [(EVar "err")]]
     [SIf [] (EBin Ge (EVar "n") (EInt 0))
       [SAssign [(EField (EVar "t") "Partitions")] [(EMake (GSlice (GNamed "OffsetForLeaderPartition23")) (EVar "n"))];
        SFor [SDefine ["i"] [(EInt 0)]] (EBin Lt (EVar "i") (EVar "n")) [SOp (EVar "i") Add (EInt 1)]
         [SVar "item" (Some (GNamed "OffsetForLeaderPartition23")) None;
          SIf [SDefine ["err"] [(EMethod (EAddr (EVar "item")) "Decode" [(EVar "d"); (EVar "version")])]] (EBin Ne (EVar "err") ENil)
           [SReturn [(EVar "err")]]
           [];
          SAssign [(EIndex (EField (EVar "t") "Partitions") (EVar "i"))] [(EVar "item")]]]
       []];
   SReturn [(EVar "err")]].
(** message/messages.gen.go:6427 *)
Definition go_OffsetForLeaderPartition23_Size : func := mkFunc [("t", GNamed "OffsetForLeaderPartition23"); ("version", GInt I16)] [GInt I32]
  [SVar "sz" (Some (GInt I32)) None;
   SOp (EVar "sz") Add (EGlobal "sizeof.Int32");
   SIf [] (EBin Ge (EVar "version") (EInt 2))
     [SOp (EVar "sz") Add (EGlobal "sizeof.Int32")]
     [];
   SOp (EVar "sz") Add (EGlobal "sizeof.Int32");
   SReturn [(EVar "sz")]].
(** message/messages.gen.go:6438 *)
Definition go_OffsetForLeaderPartition23_Encode : func := mkFunc [("t", GNamed "OffsetForLeaderPartition23"); ("e", GPtr (GNamed "Encoder")); ("version", GInt I16)] []
  [SExpr (EMethod (EVar "e") "PutInt32" [(EField (EVar "t") "PartitionIndex")]);
   SIf [] (EBin Ge (EVar "version") (EInt 2))
     [SExpr (EMethod (EVar "e") "PutInt32" [(EField (EVar "t") "CurrentLeaderEpoch")])]
     [];
   SExpr (EMethod (EVar "e") "PutInt32" [(EField (EVar "t") "LeaderEpoch")])].
(** message/messages.gen.go:6447 *)
Definition go_OffsetForLeaderPartition23_Decode : func := mkFunc [("t", GPtr (GNamed "OffsetForLeaderPartition23")); ("d", GPtr (GNamed "Decoder")); ("version", GInt I16)] [GNamed "error"]
  [SVar "err" (Some (GNamed "error")) None;
   SAssign [(EField (EVar "t") "PartitionIndex"); (EVar "err")] [(EMethod (EVar "d") "Int32" [])];
   SIf [] (EBin Ne (EVar "err") ENil)
     [SReturn [(EVar "err")]]
     [];
   SIf [] (EBin Ge (EVar "version") (EInt 2))
     [SAssign [(EField (EVar "t") "CurrentLeaderEpoch"); (EVar "err")] [(EMethod (EVar "d") "Int32" [])];
      SIf [] (EBin Ne (EVar "err") ENil)
       [SReturn [(EVar "err")]]
       []]
     [];
   SAssign [(EField (EVar "t") "LeaderEpoch"); (EVar "err")] [(EMethod (EVar "d") "Int32" [])];
   SIf [] (EBin Ne (EVar "err") ENil)
     [SReturn [(EVar "err")]]
     [];
   SReturn [(EVar "err")]].
(** message/messages.gen.go:6473 *)
Definition go_OffsetForLeaderEpochResponse_Size : func := mkFunc [("t", GNamed "OffsetForLeaderEpochResponse"); ("version", GInt I16)] [GInt I32]
  [SVar "sz" (Some (GInt I32)) None;
   SIf [] (EBin Ge (EVar "version") (EInt 2))
     [SOp (EVar "sz") Add (EGlobal "sizeof.Int32")]
     [];
   SOp (EVar "sz") Add (EGlobal "sizeof.ArrayLength");
   SFor [SDefine ["i"] [(EBin Sub (ELen (EField (EVar "t") "Topics")) (EInt 1))]] (EBin Ge (EVar "i") (EInt 0)) [SOp (EVar "i") Sub (EInt 1)]
     [SOp (EVar "sz") Add (EMethod (EIndex (EField (EVar "t") "Topics") (EVar "i")) "Size" [(EVar "version")])];
   SReturn [(EVar "sz")]].
(** message/messages.gen.go:6486 *)
Definition go_OffsetForLeaderEpochResponse_Encode : func := mkFunc [("t", GNamed "OffsetForLeaderEpochResponse"); ("e", GPtr (GNamed "Encoder")); ("version", GInt I16)] []
  [SIf [] (EBin Ge (EVar "version") (EInt 2))
     [SExpr (EMethod (EVar "e") "PutInt32" [(EField (EVar "t") "ThrottleTimeMs")])]
     [];
   SDefine ["len1"] [(ELen (EField (EVar "t") "Topics"))];
   SExpr (EMethod (EVar "e") "PutArrayLength" [(EVar "len1")]);
   SFor [SDefine ["i"] [(EInt 0)]] (EBin Lt (EVar "i") (EVar "len1")) [SOp (EVar "i") Add (EInt 1)]
     [SExpr (EMethod (EIndex (EField (EVar "t") "Topics") (EVar "i")) "Encode" [(EVar "e"); (EVar "version")])]].
(** message/messages.gen.go:6499 *)
Definition go_OffsetForLeaderEpochResponse_Decode : func := mkFunc [("t", GPtr (GNamed "OffsetForLeaderEpochResponse")); ("d", GPtr (GNamed "Decoder")); ("version", GInt I16)] [GNamed "error"]
  [SVar "err" (Some (GNamed "error")) None;
   SIf [] (EBin Ge (EVar "version") (EInt 2))
     [SAssign [(EField (EVar "t") "ThrottleTimeMs"); (EVar "err")] [(EMethod (EVar "d") "Int32" [])];
      SIf [] (EBin Ne (EVar "err") ENil)
       [SReturn [(EVar "err")]]
       []]
     [];
   SIf [SDefine ["n"; "err"] [(EMethod (EVar "d") "ArrayLength" [])]] (EBin Ne (EVar "err") ENil)
     [SReturn [(EVar "err")]]
     [SIf [] (EBin Ge (EVar "n") (EInt 0))
       [SAssign [(EField (EVar "t") "Topics")] [(EMake (GSlice (GNamed "OffsetForLeaderTopicResult23")) (EVar "n"))];
        SFor [SDefine ["i"] [(EInt 0)]] (EBin Lt (EVar "i") (EVar "n")) [SOp (EVar "i") Add (EInt 1)]
         [SVar "item" (Some (GNamed "OffsetForLeaderTopicResult23")) None;
          SIf [SDefine ["err"] [(EMethod (EAddr (EVar "item")) "Decode" [(EVar "d"); (EVar "version")])]] (EBin Ne (EVar "err") ENil)
           [SReturn [(EVar "err")]]
           [];
          SAssign [(EIndex (EField (EVar "t") "Topics") (EVar "i"))] [(EVar "item")]]]
       []];
   SReturn [(EVar "err")]].
(** message/messages.gen.go:6529 *)
Definition go_OffsetForLeaderTopicResult23_Size : func := mkFunc [("t", GNamed "OffsetForLeaderTopicResult23"); ("version", GInt I16)] [GInt I32]
  [SVar "sz" (Some (GInt I32)) None;
   SOp (EVar "sz") Add (ECall "sizeof.String" [(EField (EVar "t") "Name")]);
   SOp (EVar "sz") Add (EGlobal "sizeof.ArrayLength");
   SFor [SDefine ["i"] [(EBin Sub (ELen (EField (EVar "t") "Partitions")) (EInt 1))]] (EBin Ge (EVar "i") (EInt 0)) [SOp (EVar "i") Sub (EInt 1)]
     [SOp (EVar "sz") Add (EMethod (EIndex (EField (EVar "t") "Partitions") (EVar "i")) "Size" [(EVar "version")])];
   SReturn [(EVar "sz")]].
(** message/messages.gen.go:6540 *)
Definition go_OffsetForLeaderTopicResult23_Encode : func := mkFunc [("t", GNamed "OffsetForLeaderTopicResult23"); ("e", GPtr (GNamed "Encoder")); ("version", GInt I16)] []
  [SExpr (EMethod (EVar "e") "PutString" [(EField (EVar "t") "Name")]);
   SDefine ["len1"] [(ELen (EField (EVar "t") "Partitions"))];
   SExpr (EMethod (EVar "e") "PutArrayLength" [(EVar "len1")]);
   SFor [SDefine ["i"] [(EInt 0)]] (EBin Lt (EVar "i") (EVar "len1")) [SOp (EVar "i") Add (EInt 1)]
     [SExpr (EMethod (EIndex (EField (EVar "t") "Partitions") (EVar "i")) "Encode" [(EVar "e"); (EVar "version")])]].
(** message/messages.gen.go:6551 *)
Definition go_OffsetForLeaderTopicResult23_Decode : func := mkFunc [("t", GPtr (GNamed "OffsetForLeaderTopicResult23")); ("d", GPtr (GNamed "Decoder")); ("version", GInt I16)] [GNamed "error"]
  [SVar "err" (Some (GNamed "error")) None;
   SAssign [(EField (EVar "t") "Name"); (EVar "err")] [(EMethod (EVar "d") "String" [])];
   SIf [] (EBin Ne (EVar "err") ENil)
     [SReturn [(EVar "err")]]
     [];
   SIf [SDefine ["n"; "err"] [(EMethod (EVar "d") "ArrayLength" [])]] (EBin Ne (EVar "err") ENil)
     [SReturn [(EVar "err")]]
     [SIf [] (EBin Ge (EVar "n") (EInt 0))
       [SAssign [(EField (EVar "t") "Partitions")] [(EMake (GSlice (GNamed "OffsetForLeaderPartitionResult23")) (EVar "n"))];
        SFor [SDefine ["i"] [(EInt 0)]] (EBin Lt (EVar "i") (EVar "n")) [SOp (EVar "i") Add (EInt 1)]
         [SVar "item" (Some (GNamed "OffsetForLeaderPartitionResult23")) None;
          SIf [SDefine ["err"] [(EMethod (EAddr (EVar "item")) "Decode" [(EVar "d"); (EVar "version")])]] (EBin Ne (EVar "err") ENil)
           [SReturn [(EVar "err")]]
           [];
          SAssign [(EIndex (EField (EVar "t") "Partitions") (EVar "i"))] [(EVar "item")]]]
       []];
   SReturn [(EVar "err")]].
(** message/messages.gen.go:6581 *)
Definition go_OffsetForLeaderPartitionResult23_Size : func := mkFunc [("t", GNamed "OffsetForLeaderPartitionResult23"); ("version", GInt I16)] [GInt I32]
  [SVar "sz" (Some (GInt I32)) None;
   SOp (EVar "sz") Add (EGlobal "sizeof.Int16");
   SOp (EVar "sz") Add (EGlobal "sizeof.Int32");
   SIf [] (EBin Ge (EVar "version") (EInt 1))
     [SOp (EVar "sz") Add (EGlobal "sizeof.Int32")]
     [];
   SOp (EVar "sz") Add (EGlobal "sizeof.Int64");
   SReturn [(EVar "sz")]].
(** message/messages.gen.go:6593 *)
Definition go_OffsetForLeaderPartitionResult23_Encode : func := mkFunc [("t", GNamed "OffsetForLeaderPartitionResult23"); ("e", GPtr (GNamed "Encoder")); ("version", GInt I16)] []
  [SExpr (EMethod (EVar "e") "PutInt16" [(EField (EVar "t") "ErrorCode")]);
   SExpr (EMethod (EVar "e") "PutInt32" [(EField (EVar "t") "PartitionIndex")]);
   SIf [] (EBin Ge (EVar "version") (EInt 1))
     [SExpr (EMethod (EVar "e") "PutInt32" [(EField (EVar "t") "LeaderEpoch")])]
     [];
   SExpr (EMethod (EVar "e") "PutInt64" [(EField (EVar "t") "EndOffset")])].
(** message/messages.gen.go:6603 *)
Definition go_OffsetForLeaderPartitionResult23_Decode : func := mkFunc [("t", GPtr (GNamed "OffsetForLeaderPartitionResult23")); ("d", GPtr (GNamed "Decoder")); ("version", GInt I16)] [GNamed "error"]
  [SVar "err" (Some (GNamed "error")) None;
   SAssign [(EField (EVar "t") "ErrorCode"); (EVar "err")] [(EMethod (EVar "d") "Int16" [])];
   SIf [] (EBin Ne (EVar "err") ENil)
     [SReturn [(EVar "err")]]
     [];
   SAssign [(EField (EVar "t") "PartitionIndex"); (EVar "err")] [(EMethod (EVar "d") "Int32" [])];
   SIf [] (EBin Ne (EVar "err") ENil)
     [SReturn [(EVar "err")]]
     [];
   SIf [] (EBin Ge (EVar "version") (EInt 1))
     [SAssign [(EField (EVar "t") "LeaderEpoch"); (EVar "err")] [(EMethod (EVar "d") "Int32" [])];
      SIf [] (EBin Ne (EVar "err") ENil)
       [SReturn [(EVar "err")]]
       []]
     [];
   SAssign [(EField (EVar "t") "EndOffset"); (EVar "err")] [(EMethod (EVar "d") "Int64" [])];
   SIf [] (EBin Ne (EVar "err") ENil)
     [SReturn [(EVar "err")]]
     [];
   SReturn [(EVar "err")]].
(** message/messages.gen.go:6635 *)
Definition go_AddPartitionsToTxnRequest_Size : func := mkFunc [("t", GNamed "AddPartitionsToTxnRequest"); ("version", GInt I16)] [GInt I32]
  [SVar "sz" (Some (GInt I32)) None;
   SOp (EVar "sz") Add (ECall "sizeof.String" [(EField (EVar "t") "TransactionalId")]);
   SOp (EVar "sz") Add (EGlobal "sizeof.Int64");
   SOp (EVar "sz") Add (EGlobal "sizeof.Int16");
   SOp (EVar "sz") Add (EGlobal "sizeof.ArrayLength");
   SFor [SDefine ["i"] [(EBin Sub (ELen (EField (EVar "t") "Topics")) (EInt 1))]] (EBin Ge (EVar "i") (EInt 0)) [SOp (EVar "i") Sub (EInt 1)]
     [SOp (EVar "sz") Add (EMethod (EIndex (EField (EVar "t") "Topics") (EVar "i")) "Size" [(EVar "version")])];
   SReturn [(EVar "sz")]].
(** message/messages.gen.go:6648 *)
Definition go_AddPartitionsToTxnRequest_Encode : func := mkFunc [("t", GNamed "AddPartitionsToTxnRequest"); ("e", GPtr (GNamed "Encoder")); ("version", GInt I16)] []
  [SExpr (EMethod (EVar "e") "PutString" [(EField (EVar "t") "TransactionalId")]);
   SExpr (EMethod (EVar "e") "PutInt64" [(EField (EVar "t") "ProducerId")]);
   SExpr (EMethod (EVar "e") "PutInt16" [(EField (EVar "t") "ProducerEpoch")]);
   SDefine ["len3"] [(ELen (EField (EVar "t") "Topics"))];
   SExpr (EMethod (EVar "e") "PutArrayLength" [(EVar "len3")]);
   SFor [SDefine ["i"] [(EInt 0)]] (EBin Lt (EVar "i") (EVar "len3")) [SOp (EVar "i") Add (EInt 1)]
     [SExpr (EMethod (EIndex (EField (EVar "t") "Topics") (EVar "i")) "Encode" [(EVar "e"); (EVar "version")])]].
(** message/messages.gen.go:6661 *)
Definition go_AddPartitionsToTxnRequest_Decode : func := mkFunc [("t", GPtr (GNamed "AddPartitionsToTxnRequest")); ("d", GPtr (GNamed "Decoder")); ("version", GInt I16)] [GNamed "error"]
  [SVar "err" (Some (GNamed "error")) None;
   SAssign [(EField (EVar "t") "TransactionalId"); (EVar "err")] [(EMethod (EVar "d") "String" [])];
   SIf [] (EBin Ne (EVar "err") ENil)
     [SReturn [(EVar "err")]]
     [];
   SAssign [(EField (EVar "t") "ProducerId"); (EVar "err")] [(EMethod (EVar "d") "Int64" [])];
   SIf [] (EBin Ne (EVar "err") ENil)
     [SReturn [(EVar "err")]]
     [];
   SAssign [(EField (EVar "t") "ProducerEpoch"); (EVar "err")] [(EMethod (EVar "d") "Int16" [])];
   SIf [] (EBin Ne (EVar "err") ENil)
     [SReturn [(EVar "err")]]
     [];
   SIf [SDefine ["n"; "err"] [(EMethod (EVar "d") "ArrayLength" [])]] (EBin Ne (EVar "err") ENil)
     [SReturn [(EVar "err")]]
     [SIf [] (EBin Ge (EVar "n") (EInt 0))
       [SAssign [(EField (EVar "t") "Topics")] [(EMake (GSlice (GNamed "AddPartitionsToTxnTopic24")) (EVar "n"))];
        SFor [SDefine ["i"] [(EInt 0)]] (EBin Lt (EVar "i") (EVar "n")) [SOp (EVar "i") Add (EInt 1)]
         [SVar "item" (Some (GNamed "AddPartitionsToTxnTopic24")) None;
          SIf [SDefine ["err"] [(EMethod (EAddr (EVar "item")) "Decode" [(EVar "d"); (EVar "version")])]] (EBin Ne (EVar "err") ENil)
           [SReturn [(EVar "err")]]
           [];
          SAssign [(EIndex (EField (EVar "t") "Topics") (EVar "i"))] [(EVar "item")]]]
       []];
   SReturn [(EVar "err")]].
(** message/messages.gen.go:6697 *)
Definition go_AddPartitionsToTxnTopic24_Size : func := mkFunc [("t", GNamed "AddPartitionsToTxnTopic24"); ("version", GInt I16)] [GInt I32]
  [SVar "sz" (Some (GInt I32)) None;
   SOp (EVar "sz") Add (ECall "sizeof.String" [(EField (EVar "t") "Name")]);
   SOp (EVar "sz") Add (ECall "sizeof.Int32Array" [(EField (EVar "t") "Partitions")]);
   SReturn [(EVar "sz")]].
(** message/messages.gen.go:6705 *)
Definition go_AddPartitionsToTxnTopic24_Encode : func := mkFunc [("t", GNamed "AddPartitionsToTxnTopic24"); ("e", GPtr (GNamed "Encoder")); ("version", GInt I16)] []
  [SExpr (EMethod (EVar "e") "PutString" [(EField (EVar "t") "Name")]);
   SExpr (EMethod (EVar "e") "PutInt32Array" [(EField (EVar "t") "Partitions")])].
(** message/messages.gen.go:6711 *)
Definition go_AddPartitionsToTxnTopic24_Decode : func := mkFunc [("t", GPtr (GNamed "AddPartitionsToTxnTopic24")); ("d", GPtr (GNamed "Decoder")); ("version", GInt I16)] [GNamed "error"]
  [SVar "err" (Some (GNamed "error")) None;
   SAssign [(EField (EVar "t") "Name"); (EVar "err")] [(EMethod (EVar "d") "String" [])];
   SIf [] (EBin Ne (EVar "err") ENil)
     [SReturn [(EVar "err")]]
     [];
   SAssign [(EField (EVar "t") "Partitions"); (EVar "err")] [(EMethod (EVar "d") "Int32Array" [])];
   SIf [] (EBin Ne (EVar "err") ENil)
     [SReturn [(EVar "err")]]
     [];
   SReturn [(EVar "err")]].
(** message/messages.gen.go:6731 *)
Definition go_AddPartitionsToTxnResponse_Size : func := mkFunc [("t", GNamed "AddPartitionsToTxnResponse"); ("version", GInt I16)] [GInt I32]
  [SVar "sz" (Some (GInt I32)) None;
   SOp (EVar "sz") Add (EGlobal "sizeof.Int32");
   SOp (EVar "sz") Add (EGlobal "sizeof.ArrayLength");
   SFor [SDefine ["i"] [(EBin Sub (ELen (EField (EVar "t") "Results")) (EInt 1))]] (EBin Ge (EVar "i") (EInt 0)) [SOp (EVar "i") Sub (EInt 1)]
     [SOp (EVar "sz") Add (EMethod (EIndex (EField (EVar "t") "Results") (EVar "i")) "Size" [(EVar "version")])];
   SReturn [(EVar "sz")]].
(** message/messages.gen.go:6742 *)
Definition go_AddPartitionsToTxnResponse_Encode : func := mkFunc [("t", GNamed "AddPartitionsToTxnResponse"); ("e", GPtr (GNamed "Encoder")); ("version", GInt I16)] []
  [SExpr (EMethod (EVar "e") "PutInt32" [(EField (EVar "t") "ThrottleTimeMs")]);
   SDefine ["len1"] [(ELen (EField (EVar "t") "Results"))];
   SExpr (EMethod (EVar "e") "PutArrayLength" [(EVar "len1")]);
   SFor [SDefine ["i"] [(EInt 0)]] (EBin Lt (EVar "i") (EVar "len1")) [SOp (EVar "i") Add (EInt 1)]
     [SExpr (EMethod (EIndex (EField (EVar "t") "Results") (EVar "i")) "Encode" [(EVar "e"); (EVar "version")])]].
(** message/messages.gen.go:6753 *)
Definition go_AddPartitionsToTxnResponse_Decode : func := mkFunc [("t", GPtr (GNamed "AddPartitionsToTxnResponse")); ("d", GPtr (GNamed "Decoder")); ("version", GInt I16)] [GNamed "error"]
  [SVar "err" (Some (GNamed "error")) None;
   SAssign [(EField (EVar "t") "ThrottleTimeMs"); (EVar "err")] [(EMethod (EVar "d") "Int32" [])];
   SIf [] (EBin Ne (EVar "err") ENil)
     [SReturn [(EVar "err")]]
     [];
   SIf [SDefine ["n"; "err"] [(EMethod (EVar "d") "ArrayLength" [])]] (EBin Ne (EVar "err") ENil)
     [SReturn [(EVar "err")]]
     [SIf [] (EBin Ge (EVar "n") (EInt 0))
       [SAssign [(EField (EVar "t") "Results")] [(EMake (GSlice (GNamed "AddPartitionsToTxnTopicResult24")) (EVar "n"))];
        SFor [SDefine ["i"] [(EInt 0)]] (EBin Lt (EVar "i") (EVar "n")) [SOp (EVar "i") Add (EInt 1)]
         [SVar "item" (Some (GNamed "AddPartitionsToTxnTopicResult24")) None;
          SIf [SDefine ["err"] [(EMethod (EAddr (EVar "item")) "Decode" [(EVar "d"); (EVar "version")])]] (EBin Ne (EVar "err") ENil)
           [SReturn [(EVar "err")]]
           [];
          SAssign [(EIndex (EField (EVar "t") "Results") (EVar "i"))] [(EVar "item")]]]
       []];
   SReturn [(EVar "err")]].
(** message/messages.gen.go:6781 *)
Definition go_AddPartitionsToTxnTopicResult24_Size : func := mkFunc [("t", GNamed "AddPartitionsToTxnTopicResult24"); ("version", GInt I16)] [GInt I32]
  [SVar "sz" (Some (GInt I32)) None;
   SOp (EVar "sz") Add (ECall "sizeof.String" [(EField (EVar "t") "Name")]);
   SOp (EVar "sz") Add (EGlobal "sizeof.ArrayLength");
   SFor [SDefine ["i"] [(EBin Sub (ELen (EField (EVar "t") "Results")) (EInt 1))]] (EBin Ge (EVar "i") (EInt 0)) [SOp (EVar "i") Sub (EInt 1)]
     [SOp (EVar "sz") Add (EMethod (EIndex (EField (EVar "t") "Results") (EVar "i")) "Size" [(EVar "version")])];
   SReturn [(EVar "sz")]].
(** message/messages.gen.go:6792 *)
Definition go_AddPartitionsToTxnTopicResult24_Encode : func := mkFunc [("t", GNamed "AddPartitionsToTxnTopicResult24"); ("e", GPtr (GNamed "Encoder")); ("version", GInt I16)] []
  [SExpr (EMethod (EVar "e") "PutString" [(EField (EVar "t") "Name")]);
   SDefine ["len1"] [(ELen (EField (EVar "t") "Results"))];
   SExpr (EMethod (EVar "e") "PutArrayLength" [(EVar "len1")]);
   SFor [SDefine ["i"] [(EInt 0)]] (EBin Lt (EVar "i") (EVar "len1")) [SOp (EVar "i") Add (EInt 1)]
     [SExpr (EMethod (EIndex (EField (EVar "t") "Results") (EVar "i")) "Encode" [(EVar "e"); (EVar "version")])]].
(** message/messages.gen.go:6803 *)
Definition go_AddPartitionsToTxnTopicResult24_Decode : func := mkFunc [("t", GPtr (GNamed "AddPartitionsToTxnTopicResult24")); ("d", GPtr (GNamed "Decoder")); ("version", GInt I16)] [GNamed "error"]
  [SVar "err" (Some (GNamed "error")) None;
   SAssign [(EField (EVar "t") "Name"); (EVar "err")] [(EMethod (EVar "d") "String" [])];
   SIf [] (EBin Ne (EVar "err") ENil)
     [SReturn [(EVar "err")]]
     [];
   SIf [SDefine ["n"; "err"] [(EMethod (EVar "d") "ArrayLength" [])]] (EBin Ne (EVar "err") ENil)
     [SReturn [(EVar "err")]]
     [SIf [] (EBin Ge (EVar "n") (EInt 0))
       [SAssign [(EField (EVar "t") "Results")] [(EMake (GSlice (GNamed "AddPartitionsToTxnPartitionResult24")) (EVar "n"))];
        SFor [SDefine ["i"] [(EInt 0)]] (EBin Lt (EVar "i") (EVar "n")) [SOp (EVar "i") Add (EInt 1)]
         [SVar "item" (Some (GNamed "AddPartitionsToTxnPartitionResult24")) None;
          SIf [SDefine ["err"] [(EMethod (EAddr (EVar "item")) "Decode" [(EVar "d"); (EVar "version")])]] (EBin Ne (EVar "err") ENil)
           [SReturn [(EVar "err")]]
           [];
          SAssign [(EIndex (EField (EVar "t") "Results") (EVar "i"))] [(EVar "item")]]]
       []];
   SReturn [(EVar "err")]].
(** message/messages.gen.go:6831 *)
Definition go_AddPartitionsToTxnPartitionResult24_Size : func := mkFunc [("t", GNamed "AddPartitionsToTxnPartitionResult24"); ("version", GInt I16)] [GInt I32]
  [SVar "sz" (Some (GInt I32)) None;
   SOp (EVar "sz") Add (EGlobal "sizeof.Int32");
   SOp (EVar "sz") Add (EGlobal "sizeof.Int16");
   SReturn [(EVar "sz")]].
(** message/messages.gen.go:6839 *)
Definition go_AddPartitionsToTxnPartitionResult24_Encode : func := mkFunc [("t", GNamed "AddPartitionsToTxnPartitionResult24"); ("e", GPtr (GNamed "Encoder")); ("version", GInt I16)] []
  [SExpr (EMethod (EVar "e") "PutInt32" [(EField (EVar "t") "PartitionIndex")]);
   SExpr (EMethod (EVar "e") "PutInt16" [(EField (EVar "t") "ErrorCode")])].
(** message/messages.gen.go:6845 *)
Definition go_AddPartitionsToTxnPartitionResult24_Decode : func := mkFunc [("t", GPtr (GNamed "AddPartitionsToTxnPartitionResult24")); ("d", GPtr (GNamed "Decoder")); ("version", GInt I16)] [GNamed "error"]
  [SVar "err" (Some (GNamed "error")) None;
   SAssign [(EField (EVar "t") "PartitionIndex"); (EVar "err")] [(EMethod (EVar "d") "Int32" [])];
   SIf [] (EBin Ne (EVar "err") ENil)
     [SReturn [(EVar "err")]]
     [];
   SAssign [(EField (EVar "t") "ErrorCode"); (EVar "err")] [(EMethod (EVar "d") "Int16" [])];
   SIf [] (EBin Ne (EVar "err") ENil)
     [SReturn [(EVar "err")]]
     [];
   SReturn [(EVar "err")]].
(** message/messages.gen.go:6867 *)
Definition go_AddOffsetsToTxnRequest_Size : func := mkFunc [("t", GNamed "AddOffsetsToTxnRequest"); ("version", GInt I16)] [GInt I32]
  [SVar "sz" (Some (GInt I32)) None;
   SOp (EVar "sz") Add (ECall "sizeof.String" [(EField (EVar "t") "TransactionalId")]);
   SOp (EVar "sz") Add (EGlobal "sizeof.Int64");
   SOp (EVar "sz") Add (EGlobal "sizeof.Int16");
   SOp (EVar "sz") Add (ECall "sizeof.String" [(EField (EVar "t") "GroupId")]);
   SReturn [(EVar "sz")]].
(** message/messages.gen.go:6877 *)
Definition go_AddOffsetsToTxnRequest_Encode : func := mkFunc [("t", GNamed "AddOffsetsToTxnRequest"); ("e", GPtr (GNamed "Encoder")); ("version", GInt I16)] []
  [SExpr (EMethod (EVar "e") "PutString" [(EField (EVar "t") "TransactionalId")]);
   SExpr (EMethod (EVar "e") "PutInt64" [(EField (EVar "t") "ProducerId")]);
   SExpr (EMethod (EVar "e") "PutInt16" [(EField (EVar "t") "ProducerEpoch")]);
   SExpr (EMethod (EVar "e") "PutString" [(EField (EVar "t") "GroupId")])].
(** message/messages.gen.go:6885 *)
Definition go_AddOffsetsToTxnRequest_Decode : func := mkFunc [("t", GPtr (GNamed "AddOffsetsToTxnRequest")); ("d", GPtr (GNamed "Decoder")); ("version", GInt I16)] [GNamed "error"]
  [SVar "err" (Some (GNamed "error")) None;
   SAssign [(EField (EVar "t") "TransactionalId"); (EVar "err")] [(EMethod (EVar "d") "String" [])];
   SIf [] (EBin Ne (EVar "err") ENil)
     [SReturn [(EVar "err")]]
     [];
   SAssign [(EField (EVar "t") "ProducerId"); (EVar "err")] [(EMethod (EVar "d") "Int64" [])];
   SIf [] (EBin Ne (EVar "err") ENil)
     [SReturn [(EVar "err")]]
     [];
   SAssign [(EField (EVar "t") "ProducerEpoch"); (EVar "err")] [(EMethod (EVar "d") "Int16" [])];
   SIf [] (EBin Ne (EVar "err") ENil)
     [SReturn [(EVar "err")]]
     [];
   SAssign [(EField (EVar "t") "GroupId"); (EVar "err")] [(EMethod (EVar "d") "String" [])];
   SIf [] (EBin Ne (EVar "err") ENil)
     [SReturn [(EVar "err")]]
     [];
   SReturn [(EVar "err")]].
(** message/messages.gen.go:6913 *)
Definition go_AddOffsetsToTxnResponse_Size : func := mkFunc [("t", GNamed "AddOffsetsToTxnResponse"); ("version", GInt I16)] [GInt I32]
  [SVar "sz" (Some (GInt I32)) None;
   SOp (EVar "sz") Add (EGlobal "sizeof.Int32");
   SOp (EVar "sz") Add (EGlobal "sizeof.Int16");
   SReturn [(EVar "sz")]].
(** message/messages.gen.go:6921 *)
Definition go_AddOffsetsToTxnResponse_Encode : func := mkFunc [("t", GNamed "AddOffsetsToTxnResponse"); ("e", GPtr (GNamed "Encoder")); ("version", GInt I16)] []
  [SExpr (EMethod (EVar "e") "PutInt32" [(EField (EVar "t") "ThrottleTimeMs")]);
   SExpr (EMethod (EVar "e") "PutInt16" [(EField (EVar "t") "ErrorCode")])].
(** message/messages.gen.go:6927 *)
Definition go_AddOffsetsToTxnResponse_Decode : func := mkFunc [("t", GPtr (GNamed "AddOffsetsToTxnResponse")); ("d", GPtr (GNamed "Decoder")); ("version", GInt I16)] [GNamed "error"]
  [SVar "err" (Some (GNamed "error")) None;
   SAssign [(EField (EVar "t") "ThrottleTimeMs"); (EVar "err")] [(EMethod (EVar "d") "Int32" [])];
   SIf [] (EBin Ne (EVar "err") ENil)
     [SReturn [(EVar "err")]]
     [];
   SAssign [(EField (EVar "t") "ErrorCode"); (EVar "err")] [(EMethod (EVar "d") "Int16" [])];
   SIf [] (EBin Ne (EVar "err") ENil)
     [SReturn [(EVar "err")]]
     [];
   SReturn [(EVar "err")]].
(** message/messages.gen.go:6949 *)
Definition go_EndTxnRequest_Size : func := mkFunc [("t", GNamed "EndTxnRequest"); ("version", GInt I16)] [GInt I32]
  [SVar "sz" (Some (GInt I32)) None;
   SOp (EVar "sz") Add (ECall "sizeof.String" [(EField (EVar "t") "TransactionalId")]);
   SOp (EVar "sz") Add (EGlobal "sizeof.Int64");
   SOp (EVar "sz") Add (EGlobal "sizeof.Int16");
   SOp (EVar "sz") Add (EGlobal "sizeof.Bool");
   SReturn [(EVar "sz")]].
(** message/messages.gen.go:6959 *)
Definition go_EndTxnRequest_Encode : func := mkFunc [("t", GNamed "EndTxnRequest"); ("e", GPtr (GNamed "Encoder")); ("version", GInt I16)] []
  [SExpr (EMethod (EVar "e") "PutString" [(EField (EVar "t") "TransactionalId")]);
   SExpr (EMethod (EVar "e") "PutInt64" [(EField (EVar "t") "ProducerId")]);
   SExpr (EMethod (EVar "e") "PutInt16" [(EField (EVar "t") "ProducerEpoch")]);
   SExpr (EMethod (EVar "e") "PutBool" [(EField (EVar "t") "Committed")])].
(** message/messages.gen.go:6967 *)
Definition go_EndTxnRequest_Decode : func := mkFunc [("t", GPtr (GNamed "EndTxnRequest")); ("d", GPtr (GNamed "Decoder")); ("version", GInt I16)] [GNamed "error"]
  [SVar "err" (Some (GNamed "error")) None;
   SAssign [(EField (EVar "t") "TransactionalId"); (EVar "err")] [(EMethod (EVar "d") "String" [])];
   SIf [] (EBin Ne (EVar "err") ENil)
     [SReturn [(EVar "err")]]
     [];
   SAssign [(EField (EVar "t") "ProducerId"); (EVar "err")] [(EMethod (EVar "d") "Int64" [])];
   SIf [] (EBin Ne (EVar "err") ENil)
     [SReturn [(EVar "err")]]
     [];
   SAssign [(EField (EVar "t") "ProducerEpoch"); (EVar "err")] [(EMethod (EVar "d") "Int16" [])];
   SIf [] (EBin Ne (EVar "err") ENil)
     [SReturn [(EVar "err")]]
     [];
   SAssign [(EField (EVar "t") "Committed"); (EVar "err")] [(EMethod (EVar "d") "Bool" [])];
   SIf [] (EBin Ne (EVar "err") ENil)
     [SReturn [(EVar "err")]]
     [];
   SReturn [(EVar "err")]].
(** message/messages.gen.go:6995 *)
Definition go_EndTxnResponse_Size : func := mkFunc [("t", GNamed "EndTxnResponse"); ("version", GInt I16)] [GInt I32]
  [SVar "sz" (Some (GInt I32)) None;
   SOp (EVar "sz") Add (EGlobal "sizeof.Int32");
   SOp (EVar "sz") Add (EGlobal "sizeof.Int16");
   SReturn [(EVar "sz")]].
(** message/messages.gen.go:7003 *)
Definition go_EndTxnResponse_Encode : func := mkFunc [("t", GNamed "EndTxnResponse"); ("e", GPtr (GNamed "Encoder")); ("version", GInt I16)] []
  [SExpr (EMethod (EVar "e") "PutInt32" [(EField (EVar "t") "ThrottleTimeMs")]);
   SExpr (EMethod (EVar "e") "PutInt16" [(EField (EVar "t") "ErrorCode")])].
(** message/messages.gen.go:7009 *)
Definition go_EndTxnResponse_Decode : func := mkFunc [("t", GPtr (GNamed "EndTxnResponse")); ("d", GPtr (GNamed "Decoder")); ("version", GInt I16)] [GNamed "error"]
  [SVar "err" (Some (GNamed "error")) None;
   SAssign [(EField (EVar "t") "ThrottleTimeMs"); (EVar "err")] [(EMethod (EVar "d") "Int32" [])];
   SIf [] (EBin Ne (EVar "err") ENil)
     [SReturn [(EVar "err")]]
     [];
   SAssign [(EField (EVar "t") "ErrorCode"); (EVar "err")] [(EMethod (EVar "d") "Int16" [])];
   SIf [] (EBin Ne (EVar "err") ENil)
     [SReturn [(EVar "err")]]
     [];
   SReturn [(EVar "err")]].
(** message/messages.gen.go:7028 *)
Definition go_WriteTxnMarkersRequest_Size : func := mkFunc [("t", GNamed "WriteTxnMarkersRequest"); ("version", GInt I16)] [GInt I32]
  [SVar "sz" (Some (GInt I32)) None;
   SOp (EVar "sz") Add (EGlobal "sizeof.ArrayLength");
   SFor [SDefine ["i"] [(EBin Sub (ELen (EField (EVar "t") "Markers")) (EInt 1))]] (EBin Ge (EVar "i") (EInt 0)) [SOp (EVar "i") Sub (EInt 1)]
     [SOp (EVar "sz") Add (EMethod (EIndex (EField (EVar "t") "Markers") (EVar "i")) "Size" [(EVar "version")])];
   SReturn [(EVar "sz")]].
(** message/messages.gen.go:7038 *)
Definition go_WriteTxnMarkersRequest_Encode : func := mkFunc [("t", GNamed "WriteTxnMarkersRequest"); ("e", GPtr (GNamed "Encoder")); ("version", GInt I16)] []
  [SDefine ["len0"] [(ELen (EField (EVar "t") "Markers"))];
   SExpr (EMethod (EVar "e") "PutArrayLength" [(EVar "len0")]);
   SFor [SDefine ["i"] [(EInt 0)]] (EBin Lt (EVar "i") (EVar "len0")) [SOp (EVar "i") Add (EInt 1)]
     [SExpr (EMethod (EIndex (EField (EVar "t") "Markers") (EVar "i")) "Encode" [(EVar "e"); (EVar "version")])]].
(** message/messages.gen.go:7048 *)
Definition go_WriteTxnMarkersRequest_Decode : func := mkFunc [("t", GPtr (GNamed "WriteTxnMarkersRequest")); ("d", GPtr (GNamed "Decoder")); ("version", GInt I16)] [GNamed "error"]
  [SVar "err" (Some (GNamed "error")) None;
   SIf [SDefine ["n"; "err"] [(EMethod (EVar "d") "ArrayLength" [])]] (EBin Ne (EVar "err") ENil)
     [SReturn [(EVar "err")]]
     [SIf [] (EBin Ge (EVar "n") (EInt 0))
       [SAssign [(EField (EVar "t") "Markers")] [(EMake (GSlice (GNamed "WritableTxnMarker27")) (EVar "n"))];
        SFor [SDefine ["i"] [(EInt 0)]] (EBin Lt (EVar "i") (EVar "n")) [SOp (EVar "i") Add (EInt 1)]
         [SVar "item" (Some (GNamed "WritableTxnMarker27")) None;
          SIf [SDefine ["err"] [(EMethod (EAddr (EVar "item")) "Decode" [(EVar "d"); (EVar "version")])]] (EBin Ne (EVar "err") ENil)
           [SReturn [(EVar "err")]]
           [];
          SAssign [(EIndex (EField (EVar "t") "Markers") (EVar "i"))] [(EVar "item")]]]
       []];
   SReturn [(EVar "err")]].
(** message/messages.gen.go:7075 *)
Definition go_WritableTxnMarker27_Size : func := mkFunc [("t", GNamed "WritableTxnMarker27"); ("version", GInt I16)] [GInt I32]
  [SVar "sz" (Some (GInt I32)) None;
   SOp (EVar "sz") Add (EGlobal "sizeof.Int64");
   SOp (EVar "sz") Add (EGlobal "sizeof.Int16");
   SOp (EVar "sz") Add (EGlobal "sizeof.Bool");
   SOp (EVar "sz") Add (EGlobal "sizeof.ArrayLength");
   SFor [SDefine ["i"] [(EBin Sub (ELen (EField (EVar "t") "Topics")) (EInt 1))]] (EBin Ge (EVar "i") (EInt 0)) [SOp (EVar "i") Sub (EInt 1)]
     [SOp (EVar "sz") Add (EMethod (EIndex (EField (EVar "t") "Topics") (EVar "i")) "Size" [(EVar "version")])];
   SOp (EVar "sz") Add (EGlobal "sizeof.Int32");
   SReturn [(EVar "sz")]].
(** message/messages.gen.go:7089 *)
Definition go_WritableTxnMarker27_Encode : func := mkFunc [("t", GNamed "WritableTxnMarker27"); ("e", GPtr (GNamed "Encoder")); ("version", GInt I16)] []
  [SExpr (EMethod (EVar "e") "PutInt64" [(EField (EVar "t") "ProducerId")]);
   SExpr (EMethod (EVar "e") "PutInt16" [(EField (EVar "t") "ProducerEpoch")]);
   SExpr (EMethod (EVar "e") "PutBool" [(EField (EVar "t") "TransactionResult")]);
   SDefine ["len3"] [(ELen (EField (EVar "t") "Topics"))];
   SExpr (EMethod (EVar "e") "PutArrayLength" [(EVar "len3")]);
   SFor [SDefine ["i"] [(EInt 0)]] (EBin Lt (EVar "i") (EVar "len3")) [SOp (EVar "i") Add (EInt 1)]
     [SExpr (EMethod (EIndex (EField (EVar "t") "Topics") (EVar "i")) "Encode" [(EVar "e"); (EVar "version")])];
   SExpr (EMethod (EVar "e") "PutInt32" [(EField (EVar "t") "CoordinatorEpoch")])].
(** message/messages.gen.go:7103 *)
Definition go_WritableTxnMarker27_Decode : func := mkFunc [("t", GPtr (GNamed "WritableTxnMarker27")); ("d", GPtr (GNamed "Decoder")); ("version", GInt I16)] [GNamed "error"]
  [SVar "err" (Some (GNamed "error")) None;
   SAssign [(EField (EVar "t") "ProducerId"); (EVar "err")] [(EMethod (EVar "d") "Int64" [])];
   SIf [] (EBin Ne (EVar "err") ENil)
     [SReturn [(EVar "err")]]
     [];
   SAssign [(EField (EVar "t") "ProducerEpoch"); (EVar "err")] [(EMethod (EVar "d") "Int16" [])];
   SIf [] (EBin Ne (EVar "err") ENil)
     [SReturn [(EVar "err")]]
     [];
   SAssign [(EField (EVar "t") "TransactionResult"); (EVar "err")] [(EMethod (EVar "d") "Bool" [])];
   SIf [] (EBin Ne (EVar "err") ENil)
     [SReturn [(EVar "err")]]
     [];
   SIf [SDefine ["n"; "err"] [(EMethod (EVar "d") "ArrayLength" [])]] (EBin Ne (EVar "err") ENil)
     [SReturn [(EVar "err")]]
     [SIf [] (EBin Ge (EVar "n") (EInt 0))
       [SAssign [(EField (EVar "t") "Topics")] [(EMake (GSlice (GNamed "WritableTxnMarkerTopic27")) (EVar "n"))];
        SFor [SDefine ["i"] [(EInt 0)]] (EBin Lt (EVar "i") (EVar "n")) [SOp (EVar "i") Add (EInt 1)]
         [SVar "item" (Some (GNamed "WritableTxnMarkerTopic27")) None;
          SIf [SDefine ["err"] [(EMethod (EAddr (EVar "item")) "Decode" [(EVar "d"); (EVar "version")])]] (EBin Ne (EVar "err") ENil)
           [SReturn [(EVar "err")]]
           [];
          SAssign [(EIndex (EField (EVar "t") "Topics") (EVar "i"))] [(EVar "item")]]]
       []];
   SAssign [(EField (EVar "t") "CoordinatorEpoch"); (EVar "err")] [(EMethod (EVar "d") "Int32" [])];
   SIf [] (EBin Ne (EVar "err") ENil)
     [SReturn [(EVar "err")]]
     [];
   SReturn [(EVar "err")]].
(** message/messages.gen.go:7143 *)
Definition go_WritableTxnMarkerTopic27_Size : func := mkFunc [("t", GNamed "WritableTxnMarkerTopic27"); ("version", GInt I16)] [GInt I32]
  [SVar "sz" (Some (GInt I32)) None;
   SOp (EVar "sz") Add (ECall "sizeof.String" [(EField (EVar "t") "Name")]);
   SOp (EVar "sz") Add (ECall "sizeof.Int32Array" [(EField (EVar "t") "PartitionIndexes")]);
   SReturn [(EVar "sz")]].
(** message/messages.gen.go:7151 *)
Definition go_WritableTxnMarkerTopic27_Encode : func := mkFunc [("t", GNamed "WritableTxnMarkerTopic27"); ("e", GPtr (GNamed "Encoder")); ("version", GInt I16)] []
  [SExpr (EMethod (EVar "e") "PutString" [(EField (EVar "t") "Name")]);
   SExpr (EMethod (EVar "e") "PutInt32Array" [(EField (EVar "t") "PartitionIndexes")])].
(** message/messages.gen.go:7157 *)
Definition go_WritableTxnMarkerTopic27_Decode : func := mkFunc [("t", GPtr (GNamed "WritableTxnMarkerTopic27")); ("d", GPtr (GNamed "Decoder")); ("version", GInt I16)] [GNamed "error"]
  [SVar "err" (Some (GNamed "error")) None;
   SAssign [(EField (EVar "t") "Name"); (EVar "err")] [(EMethod (EVar "d") "String" [])];
   SIf [] (EBin Ne (EVar "err") ENil)
     [SReturn [(EVar "err")]]
     [];
   SAssign [(EField (EVar "t") "PartitionIndexes"); (EVar "err")] [(EMethod (EVar "d") "Int32Array" [])];
   SIf [] (EBin Ne (EVar "err") ENil)
     [SReturn [(EVar "err")]]
     [];
   SReturn [(EVar "err")]].
(** message/messages.gen.go:7176 *)
Definition go_WriteTxnMarkersResponse_Size : func := mkFunc [("t", GNamed "WriteTxnMarkersResponse"); ("version", GInt I16)] [GInt I32]
  [SVar "sz" (Some (GInt I32)) None;
   SOp (EVar "sz") Add (EGlobal "sizeof.ArrayLength");
   SFor [SDefine ["i"] [(EBin Sub (ELen (EField (EVar "t") "Markers")) (EInt 1))]] (EBin Ge (EVar "i") (EInt 0)) [SOp (EVar "i") Sub (EInt 1)]
     [SOp (EVar "sz") Add (EMethod (EIndex (EField (EVar "t") "Markers") (EVar "i")) "Size" [(EVar "version")])];
   SReturn [(EVar "sz")]].
(** message/messages.gen.go:7186 *)
Definition go_WriteTxnMarkersResponse_Encode : func := mkFunc [("t", GNamed "WriteTxnMarkersResponse"); ("e", GPtr (GNamed "Encoder")); ("version", GInt I16)] []
  [SDefine ["len0"] [(ELen (EField (EVar "t") "Markers"))];
   SExpr (EMethod (EVar "e") "PutArrayLength" [(EVar "len0")]);
   SFor [SDefine ["i"] [(EInt 0)]] (EBin Lt (EVar "i") (EVar "len0")) [SOp (EVar "i") Add (EInt 1)]
     [SExpr (EMethod (EIndex (EField (EVar "t") "Markers") (EVar "i")) "Encode" [(EVar "e"); (EVar "version")])]].
(** message/messages.gen.go:7196 *)
Definition go_WriteTxnMarkersResponse_Decode : func := mkFunc [("t", GPtr (GNamed "WriteTxnMarkersResponse")); ("d", GPtr (GNamed "Decoder")); ("version", GInt I16)] [GNamed "error"]
  [SVar "err" (Some (GNamed "error")) None;
   SIf [SDefine ["n"; "err"] [(EMethod (EVar "d") "ArrayLength" [])]] (EBin Ne (EVar "err") ENil)
     [SReturn [(EVar "err")]]
     [SIf [] (EBin Ge (EVar "n") (EInt 0))
       [SAssign [(EField (EVar "t") "Markers")] [(EMake (GSlice (GNamed "WritableTxnMarkerResult27")) (EVar "n"))];
        SFor [SDefine ["i"] [(EInt 0)]] (EBin Lt (EVar "i") (EVar "n")) [SOp (EVar "i") Add (EInt 1)]
         [SVar "item" (Some (GNamed "WritableTxnMarkerResult27")) None;
          SIf [SDefine ["err"] [(EMethod (EAddr (EVar "item")) "Decode" [(EVar "d"); (EVar "version")])]] (EBin Ne (EVar "err") ENil)
           [SReturn [(EVar "err")]]
           [];
          SAssign [(EIndex (EField (EVar "t") "Markers") (EVar "i"))] [(EVar "item")]]]
       []];
   SReturn [(EVar "err")]].
(** message/messages.gen.go:7220 *)
Definition go_WritableTxnMarkerResult27_Size : func := mkFunc [("t", GNamed "WritableTxnMarkerResult27"); ("version", GInt I16)] [GInt I32]
  [SVar "sz" (Some (GInt I32)) None;
   SOp (EVar "sz") Add (EGlobal "sizeof.Int64");
   SOp (EVar "sz") Add (EGlobal "sizeof.ArrayLength");
   SFor [SDefine ["i"] [(EBin Sub (ELen (EField (EVar "t") "Topics")) (EInt 1))]] (EBin Ge (EVar "i") (EInt 0)) [SOp (EVar "i") Sub (EInt 1)]
     [SOp (EVar "sz") Add (EMethod (EIndex (EField (EVar "t") "Topics") (EVar "i")) "Size" [(EVar "version")])];
   SReturn [(EVar "sz")]].
(** message/messages.gen.go:7231 *)
Definition go_WritableTxnMarkerResult27_Encode : func := mkFunc [("t", GNamed "WritableTxnMarkerResult27"); ("e", GPtr (GNamed "Encoder")); ("version", GInt I16)] []
  [SExpr (EMethod (EVar "e") "PutInt64" [(EField (EVar "t") "ProducerId")]);
   SDefine ["len1"] [(ELen (EField (EVar "t") "Topics"))];
   SExpr (EMethod (EVar "e") "PutArrayLength" [(EVar "len1")]);
   SFor [SDefine ["i"] [(EInt 0)]] (EBin Lt (EVar "i") (EVar "len1")) [SOp (EVar "i") Add (EInt 1)]
     [SExpr (EMethod (EIndex (EField (EVar "t") "Topics") (EVar "i")) "Encode" [(EVar "e"); (EVar "version")])]].
(** message/messages.gen.go:7242 *)
Definition go_WritableTxnMarkerResult27_Decode : func := mkFunc [("t", GPtr (GNamed "WritableTxnMarkerResult27")); ("d", GPtr (GNamed "Decoder")); ("version", GInt I16)] [GNamed "error"]
  [SVar "err" (Some (GNamed "error")) None;
   SAssign [(EField (EVar "t") "ProducerId"); (EVar "err")] [(EMethod (EVar "d") "Int64" [])];
   SIf [] (EBin Ne (EVar "err") ENil)
     [SReturn [(EVar "err")]]
     [];
   SIf [SDefine ["n"; "err"] [(EMethod (EVar "d") "ArrayLength" [])]] (EBin Ne (EVar "err") ENil)
     [SReturn [(EVar "err")]]
     [SIf [] (EBin Ge (EVar "n") (EInt 0))
       [SAssign [(EField (EVar "t") "Topics")] [(EMake (GSlice (GNamed "WritableTxnMarkerTopicResult27")) (EVar "n"))];
        SFor [SDefine ["i"] [(EInt 0)]] (EBin Lt (EVar "i") (EVar "n")) [SOp (EVar "i") Add (EInt 1)]
         [SVar "item" (Some (GNamed "WritableTxnMarkerTopicResult27")) None;
          SIf [SDefine ["err"] [(EMethod (EAddr (EVar "item")) "Decode" [(EVar "d"); (EVar "version")])]] (EBin Ne (EVar "err") ENil)
           [SReturn [(EVar "err")]]
           [];
          SAssign [(EIndex (EField (EVar "t") "Topics") (EVar "i"))] [(EVar "item")]]]
       []];
   SReturn [(EVar "err")]].
(** message/messages.gen.go:7270 *)
Definition go_WritableTxnMarkerTopicResult27_Size : func := mkFunc [("t", GNamed "WritableTxnMarkerTopicResult27"); ("version", GInt I16)] [GInt I32]
  [SVar "sz" (Some (GInt I32)) None;
   SOp (EVar "sz") Add (ECall "sizeof.String" [(EField (EVar "t") "Name")]);
   SOp (EVar "sz") Add (EGlobal "sizeof.ArrayLength");
   SFor [SDefine ["i"] [(EBin Sub (ELen (EField (EVar "t") "Partitions")) (EInt 1))]] (EBin Ge (EVar "i") (EInt 0)) [SOp (EVar "i") Sub (EInt 1)]
     [SOp (EVar "sz") Add (EMethod (EIndex (EField (EVar "t") "Partitions") (EVar "i")) "Size" [(EVar "version")])];
   SReturn [(EVar "sz")]].
(** message/messages.gen.go:7281 *)
Definition go_WritableTxnMarkerTopicResult27_Encode : func := mkFunc [("t", GNamed "WritableTxnMarkerTopicResult27"); ("e", GPtr (GNamed "Encoder")); ("version", GInt I16)] []
  [SExpr (EMethod (EVar "e") "PutString" [(EField (EVar "t") "Name")]);
   SDefine ["len1"] [(ELen (EField (EVar "t") "Partitions"))];
   SExpr (EMethod (EVar "e") "PutArrayLength" [(EVar "len1")]);
   SFor [SDefine ["i"] [(EInt 0)]] (EBin Lt (EVar "i") (EVar "len1")) [SOp (EVar "i") Add (EInt 1)]
     [SExpr (EMethod (EIndex (EField (EVar "t") "Partitions") (EVar "i")) "Encode" [(EVar "e"); (EVar "version")])]].
(** message/messages.gen.go:7292 *)
Definition go_WritableTxnMarkerTopicResult27_Decode : func := mkFunc [("t", GPtr (GNamed "WritableTxnMarkerTopicResult27")); ("d", GPtr (GNamed "Decoder")); ("version", GInt I16)] [GNamed "error"]
  [SVar "err" (Some (GNamed "error")) None;
   SAssign [(EField (EVar "t") "Name"); (EVar "err")] [(EMethod (EVar "d") "String" [])];
   SIf [] (EBin Ne (EVar "err") ENil)
     [SReturn [(EVar "err")]]
     [];
   SIf [SDefine ["n"; "err"] [(EMethod (EVar "d") "ArrayLength" [])]] (EBin Ne (EVar "err") ENil)
     [SReturn [(EVar "err")]]
     [SIf [] (EBin Ge (EVar "n") (EInt 0))
       [SAssign [(EField (EVar "t") "Partitions")] [(EMake (GSlice (GNamed "WritableTxnMarkerPartitionResult27")) (EVar "n"))];
        SFor [SDefine ["i"] [(EInt 0)]] (EBin Lt (EVar "i") (EVar "n")) [SOp (EVar "i") Add (EInt 1)]
         [SVar "item" (Some (GNamed "WritableTxnMarkerPartitionResult27")) None;
          SIf [SDefine ["err"] [(EMethod (EAddr (EVar "item")) "Decode" [(EVar "d"); (EVar "version")])]] (EBin Ne (EVar "err") ENil)
           [SReturn [(EVar "err")]]
           [];
          SAssign [(EIndex (EField (EVar "t") "Partitions") (EVar "i"))] [(EVar "item")]]]
       []];
   SReturn [(EVar "err")]].
(** message/messages.gen.go:7320 *)
Definition go_WritableTxnMarkerPartitionResult27_Size : func := mkFunc [("t", GNamed "WritableTxnMarkerPartitionResult27"); ("version", GInt I16)] [GInt I32]
  [SVar "sz" (Some (GInt I32)) None;
   SOp (EVar "sz") Add (EGlobal "sizeof.Int32");
   SOp (EVar "sz") Add (EGlobal "sizeof.Int16");
   SReturn [(EVar "sz")]].
(** message/messages.gen.go:7328 *)
Definition go_WritableTxnMarkerPartitionResult27_Encode : func := mkFunc [("t", GNamed "WritableTxnMarkerPartitionResult27"); ("e", GPtr (GNamed "Encoder")); ("version", GInt I16)] []
  [SExpr (EMethod (EVar "e") "PutInt32" [(EField (EVar "t") "PartitionIndex")]);
   SExpr (EMethod (EVar "e") "PutInt16" [(EField (EVar "t") "ErrorCode")])].
(** message/messages.gen.go:7334 *)
Definition go_WritableTxnMarkerPartitionResult27_Decode : func := mkFunc [("t", GPtr (GNamed "WritableTxnMarkerPartitionResult27")); ("d", GPtr (GNamed "Decoder")); ("version", GInt I16)] [GNamed "error"]
  [SVar "err" (Some (GNamed "error")) None;
   SAssign [(EField (EVar "t") "PartitionIndex"); (EVar "err")] [(EMethod (EVar "d") "Int32" [])];
   SIf [] (EBin Ne (EVar "err") ENil)
     [SReturn [(EVar "err")]]
     [];
   SAssign [(EField (EVar "t") "ErrorCode"); (EVar "err")] [(EMethod (EVar "d") "Int16" [])];
   SIf [] (EBin Ne (EVar "err") ENil)
     [SReturn [(EVar "err")]]
     [];
   SReturn [(EVar "err")]].
(** message/messages.gen.go:7357 *)
Definition go_TxnOffsetCommitRequest_Size : func := mkFunc [("t", GNamed "TxnOffsetCommitRequest"); ("version", GInt I16)] [GInt I32]
  [SVar "sz" (Some (GInt I32)) None;
   SOp (EVar "sz") Add (ECall "sizeof.String" [(EField (EVar "t") "TransactionalId")]);
   SOp (EVar "sz") Add (ECall "sizeof.String" [(EField (EVar "t") "GroupId")]);
   SOp (EVar "sz") Add (EGlobal "sizeof.Int64");
   SOp (EVar "sz") Add (EGlobal "sizeof.Int16");
   SOp (EVar "sz") Add (EGlobal "sizeof.ArrayLength");
   SFor [SDefine ["i"] [(EBin Sub (ELen (EField (EVar "t") "Topics")) (EInt 1))]] (EBin Ge (EVar "i") (EInt 0)) [SOp (EVar "i") Sub (EInt 1)]
     [SOp (EVar "sz") Add (EMethod (EIndex (EField (EVar "t") "Topics") (EVar "i")) "Size" [(EVar "version")])];
   SReturn [(EVar "sz")]].
(** message/messages.gen.go:7371 *)
Definition go_TxnOffsetCommitRequest_Encode : func := mkFunc [("t", GNamed "TxnOffsetCommitRequest"); ("e", GPtr (GNamed "Encoder")); ("version", GInt I16)] []
  [SExpr (EMethod (EVar "e") "PutString" [(EField (EVar "t") "TransactionalId")]);
   SExpr (EMethod (EVar "e") "PutString" [(EField (EVar "t") "GroupId")]);
   SExpr (EMethod (EVar "e") "PutInt64" [(EField (EVar "t") "ProducerId")]);
   SExpr (EMethod (EVar "e") "PutInt16" [(EField (EVar "t") "ProducerEpoch")]);
   SDefine ["len4"] [(ELen (EField (EVar "t") "Topics"))];
   SExpr (EMethod (EVar "e") "PutArrayLength" [(EVar "len4")]);
   SFor [SDefine ["i"] [(EInt 0)]] (EBin Lt (EVar "i") (EVar "len4")) [SOp (EVar "i") Add (EInt 1)]
     [SExpr (EMethod (EIndex (EField (EVar "t") "Topics") (EVar "i")) "Encode" [(EVar "e"); (EVar "version")])]].
(** message/messages.gen.go:7385 *)
Definition go_TxnOffsetCommitRequest_Decode : func := mkFunc [("t", GPtr (GNamed "TxnOffsetCommitRequest")); ("d", GPtr (GNamed "Decoder")); ("version", GInt I16)] [GNamed "error"]
  [SVar "err" (Some (GNamed "error")) None;
   SAssign [(EField (EVar "t") "TransactionalId"); (EVar "err")] [(EMethod (EVar "d") "String" [])];
   SIf [] (EBin Ne (EVar "err") ENil)
     [SReturn [(EVar "err")]]
     [];
   SAssign [(EField (EVar "t") "GroupId"); (EVar "err")] [(EMethod (EVar "d") "String" [])];
   SIf [] (EBin Ne (EVar "err") ENil)
     [SReturn [(EVar "err")]]
     [];
   SAssign [(EField (EVar "t") "ProducerId"); (EVar "err")] [(EMethod (EVar "d") "Int64" [])];
   SIf [] (EBin Ne (EVar "err") ENil)
     [SReturn [(EVar "err")]]
     [];
   SAssign [(EField (EVar "t") "ProducerEpoch"); (EVar "err")] [(EMethod (EVar "d") "Int16" [])];
   SIf [] (EBin Ne (EVar "err") ENil)
     [SReturn [(EVar "err")]]
     [];
   SIf [SDefine ["n"; "err"] [(EMethod (EVar "d") "ArrayLength" [])]] (EBin Ne (EVar "err") ENil)
     [SReturn [(EVar "err")]]
     [SIf [] (EBin Ge (EVar "n") (EInt 0))
       [SAssign [(EField (EVar "t") "Topics")] [(EMake (GSlice (GNamed "TxnOffsetCommitRequestTopic28")) (EVar "n"))];
        SFor [SDefine ["i"] [(EInt 0)]] (EBin Lt (EVar "i") (EVar "n")) [SOp (EVar "i") Add (EInt 1)]
         [SVar "item" (Some (GNamed "TxnOffsetCommitRequestTopic28")) None;
          SIf [SDefine ["err"] [(EMethod (EAddr (EVar "item")) "Decode" [(EVar "d"); (EVar "version")])]] (EBin Ne (EVar "err") ENil)
           [SReturn [(EVar "err")]]
           [];
          SAssign [(EIndex (EField (EVar "t") "Topics") (EVar "i"))] [(EVar "item")]]]
       []];
   SReturn [(EVar "err")]].
(** message/messages.gen.go:7425 *)
Definition go_TxnOffsetCommitRequestTopic28_Size : func := mkFunc [("t", GNamed "TxnOffsetCommitRequestTopic28"); ("version", GInt I16)] [GInt I32]
  [SVar "sz" (Some (GInt I32)) None;
   SOp (EVar "sz") Add (ECall "sizeof.String" [(EField (EVar "t") "Name")]);
   SOp (EVar "sz") Add (EGlobal "sizeof.ArrayLength");
   SFor [SDefine ["i"] [(EBin Sub (ELen (EField (EVar "t") "Partitions")) (EInt 1))]] (EBin Ge (EVar "i") (EInt 0)) [SOp (EVar "i") Sub (EInt 1)]
     [SOp (EVar "sz") Add (EMethod (EIndex (EField (EVar "t") "Partitions") (EVar "i")) "Size" [(EVar "version")])];
   SReturn [(EVar "sz")]].
(** message/messages.gen.go:7436 *)
Definition go_TxnOffsetCommitRequestTopic28_Encode : func := mkFunc [("t", GNamed "TxnOffsetCommitRequestTopic28"); ("e", GPtr (GNamed "Encoder")); ("version", GInt I16)] []
  [SExpr (EMethod (EVar "e") "PutString" [(EField (EVar "t") "Name")]);
   SDefine ["len1"] [(ELen (EField (EVar "t") "Partitions"))];
   SExpr (EMethod (EVar "e") "PutArrayLength" [(EVar "len1")]);
   SFor [SDefine ["i"] [(EInt 0)]] (EBin Lt (EVar "i") (EVar "len1")) [SOp (EVar "i") Add (EInt 1)]
     [SExpr (EMethod (EIndex (EField (EVar "t") "Partitions") (EVar "i")) "Encode" [(EVar "e"); (EVar "version")])]].
(** message/messages.gen.go:7447 *)
Definition go_TxnOffsetCommitRequestTopic28_Decode : func := mkFunc [("t", GPtr (GNamed "TxnOffsetCommitRequestTopic28")); ("d", GPtr (GNamed "Decoder")); ("version", GInt I16)] [GNamed "error"]
  [SVar "err" (Some (GNamed "error")) None;
   SAssign [(EField (EVar "t") "Name"); (EVar "err")] [(EMethod (EVar "d") "String" [])];
   SIf [] (EBin Ne (EVar "err") ENil)
     [SReturn [(EVar "err")]]
     [];
   SIf [SDefine ["n"; "err"] [(EMethod (EVar "d") "ArrayLength" [])]] (EBin Ne (EVar "err") ENil)
     [SReturn [(EVar "err")]]
     [SIf [] (EBin Ge (EVar "n") (EInt 0))
       [SAssign [(EField (EVar "t") "Partitions")] [(EMake (GSlice (GNamed "TxnOffsetCommitRequestPartition28")) (EVar "n"))];
        SFor [SDefine ["i"] [(EInt 0)]] (EBin Lt (EVar "i") (EVar "n")) [SOp (EVar "i") Add (EInt 1)]
         [SVar "item" (Some (GNamed "TxnOffsetCommitRequestPartition28")) None;
          SIf [SDefine ["err"] [(EMethod (EAddr (EVar "item")) "Decode" [(EVar "d"); (EVar "version")])]] (EBin Ne (EVar "err") ENil)
           [SReturn [(EVar "err")]]
           [];
          SAssign [(EIndex (EField (EVar "t") "Partitions") (EVar "i"))] [(EVar "item")]]]
       []];
   SReturn [(EVar "err")]].
(** message/messages.gen.go:7477 *)
Definition go_TxnOffsetCommitRequestPartition28_Size : func := mkFunc [("t", GNamed "TxnOffsetCommitRequestPartition28"); ("version", GInt I16)] [GInt I32]
  [SVar "sz" (Some (GInt I32)) None;
   SOp (EVar "sz") Add (EGlobal "sizeof.Int32");
   SOp (EVar "sz") Add (EGlobal "sizeof.Int64");
   SIf [] (EBin Ge (EVar "version") (EInt 2))
     [SOp (EVar "sz") Add (EGlobal "sizeof.Int32")]
     [];
   SOp (EVar "sz") Add (ECall "sizeof.String" [(EField (EVar "t") "CommittedMetadata")]);
   SReturn [(EVar "sz")]].
(** message/messages.gen.go:7489 *)
Definition go_TxnOffsetCommitRequestPartition28_Encode : func := mkFunc [("t", GNamed "TxnOffsetCommitRequestPartition28"); ("e", GPtr (GNamed "Encoder")); ("version", GInt I16)] []
  [SExpr (EMethod (EVar "e") "PutInt32" [(EField (EVar "t") "PartitionIndex")]);
   SExpr (EMethod (EVar "e") "PutInt64" [(EField (EVar "t") "CommittedOffset")]);
   SIf [] (EBin Ge (EVar "version") (EInt 2))
     [SExpr (EMethod (EVar "e") "PutInt32" [(EField (EVar "t") "CommittedLeaderEpoch")])]
     [];
   SExpr (EMethod (EVar "e") "PutString" [(EField (EVar "t") "CommittedMetadata")])].
(** message/messages.gen.go:7499 *)
Definition go_TxnOffsetCommitRequestPartition28_Decode : func := mkFunc [("t", GPtr (GNamed "TxnOffsetCommitRequestPartition28")); ("d", GPtr (GNamed "Decoder")); ("version", GInt I16)] [GNamed "error"]
  [SVar "err" (Some (GNamed "error")) None;
   SAssign [(EField (EVar "t") "PartitionIndex"); (EVar "err")] [(EMethod (EVar "d") "Int32" [])];
   SIf [] (EBin Ne (EVar "err") ENil)
     [SReturn [(EVar "err")]]
     [];
   SAssign [(EField (EVar "t") "CommittedOffset"); (EVar "err")] [(EMethod (EVar "d") "Int64" [])];
   SIf [] (EBin Ne (EVar "err") ENil)
     [SReturn [(EVar "err")]]
     [];
   SIf [] (EBin Ge (EVar "version") (EInt 2))
     [SAssign [(EField (EVar "t") "CommittedLeaderEpoch"); (EVar "err")] [(EMethod (EVar "d") "Int32" [])];
      SIf [] (EBin Ne (EVar "err") ENil)
       [SReturn [(EVar "err")]]
       []]
     [];
   SAssign [(EField (EVar "t") "CommittedMetadata"); (EVar "err")] [(EMethod (EVar "d") "String" [])];
   SIf [] (EBin Ne (EVar "err") ENil)
     [SReturn [(EVar "err")]]
     [];
   SReturn [(EVar "err")]].
(** message/messages.gen.go:7529 *)
Definition go_TxnOffsetCommitResponse_Size : func := mkFunc [("t", GNamed "TxnOffsetCommitResponse"); ("version", GInt I16)] [GInt I32]
  [SVar "sz" (Some (GInt I32)) None;
   SOp (EVar "sz") Add (EGlobal "sizeof.Int32");
   SOp (EVar "sz") Add (EGlobal "sizeof.ArrayLength");
   SFor [SDefine ["i"] [(EBin Sub (ELen (EField (EVar "t") "Topics")) (EInt 1))]] (EBin Ge (EVar "i") (EInt 0)) [SOp (EVar "i") Sub (EInt 1)]
     [SOp (EVar "sz") Add (EMethod (EIndex (EField (EVar "t") "Topics") (EVar "i")) "Size" [(EVar "version")])];
   SReturn [(EVar "sz")]].
(** message/messages.gen.go:7540 *)
Definition go_TxnOffsetCommitResponse_Encode : func := mkFunc [("t", GNamed "TxnOffsetCommitResponse"); ("e", GPtr (GNamed "Encoder")); ("version", GInt I16)] []
  [SExpr (EMethod (EVar "e") "PutInt32" [(EField (EVar "t") "ThrottleTimeMs")]);
   SDefine ["len1"] [(ELen (EField (EVar "t") "Topics"))];
   SExpr (EMethod (EVar "e") "PutArrayLength" [(EVar "len1")]);
   SFor [SDefine ["i"] [(EInt 0)]] (EBin Lt (EVar "i") (EVar "len1")) [SOp (EVar "i") Add (EInt 1)]
     [SExpr (EMethod (EIndex (EField (EVar "t") "Topics") (EVar "i")) "Encode" [(EVar "e"); (EVar "version")])]].
(** message/messages.gen.go:7551 *)
Definition go_TxnOffsetCommitResponse_Decode : func := mkFunc [("t", GPtr (GNamed "TxnOffsetCommitResponse")); ("d", GPtr (GNamed "Decoder")); ("version", GInt I16)] [GNamed "error"]
  [SVar "err" (Some (GNamed "error")) None;
   SAssign [(EField (EVar "t") "ThrottleTimeMs"); (EVar "err")] [(EMethod (EVar "d") "Int32" [])];
   SIf [] (EBin Ne (EVar "err") ENil)
     [SReturn [(EVar "err")]]
     [];
   SIf [SDefine ["n"; "err"] [(EMethod (EVar "d") "ArrayLength" [])]] (EBin Ne (EVar "err") ENil)
     [SReturn [(EVar "err")]]
     [SIf [] (EBin Ge (EVar "n") (EInt 0))
       [SAssign [(EField (EVar "t") "Topics")] [(EMake (GSlice (GNamed "TxnOffsetCommitResponseTopic28")) (EVar "n"))];
        SFor [SDefine ["i"] [(EInt 0)]] (EBin Lt (EVar "i") (EVar "n")) [SOp (EVar "i") Add (EInt 1)]
         [SVar "item" (Some (GNamed "TxnOffsetCommitResponseTopic28")) None;
          SIf [SDefine ["err"] [(EMethod (EAddr (EVar "item")) "Decode" [(EVar "d"); (EVar "version")])]] (EBin Ne (EVar "err") ENil)
           [SReturn [(EVar "err")]]
           [];
          SAssign [(EIndex (EField (EVar "t") "Topics") (EVar "i"))] [(EVar "item")]]]
       []];
   SReturn [(EVar "err")]].
(** message/messages.gen.go:7579 *)
Definition go_TxnOffsetCommitResponseTopic28_Size : func := mkFunc [("t", GNamed "TxnOffsetCommitResponseTopic28"); ("version", GInt I16)] [GInt I32]
  [SVar "sz" (Some (GInt I32)) None;
   SOp (EVar "sz") Add (ECall "sizeof.String" [(EField (EVar "t") "Name")]);
   SOp (EVar "sz") Add (EGlobal "sizeof.ArrayLength");
   SFor [SDefine ["i"] [(EBin Sub (ELen (EField (EVar "t") "Partitions")) (EInt 1))]] (EBin Ge (EVar "i") (EInt 0)) [SOp (EVar "i") Sub (EInt 1)]
     [SOp (EVar "sz") Add (EMethod (EIndex (EField (EVar "t") "Partitions") (EVar "i")) "Size" [(EVar "version")])];
   SReturn [(EVar "sz")]].
(** message/messages.gen.go:7590 *)
Definition go_TxnOffsetCommitResponseTopic28_Encode : func := mkFunc [("t", GNamed "TxnOffsetCommitResponseTopic28"); ("e", GPtr (GNamed "Encoder")); ("version", GInt I16)] []
  [SExpr (EMethod (EVar "e") "PutString" [(EField (EVar "t") "Name")]);
   SDefine ["len1"] [(ELen (EField (EVar "t") "Partitions"))];
   SExpr (EMethod (EVar "e") "PutArrayLength" [(EVar "len1")]);
   SFor [SDefine ["i"] [(EInt 0)]] (EBin Lt (EVar "i") (EVar "len1")) [SOp (EVar "i") Add (EInt 1)]
     [SExpr (EMethod (EIndex (EField (EVar "t") "Partitions") (EVar "i")) "Encode" [(EVar "e"); (EVar "version")])]].
(** message/messages.gen.go:7601 *)
Definition go_TxnOffsetCommitResponseTopic28_Decode : func := mkFunc [("t", GPtr (GNamed "TxnOffsetCommitResponseTopic28")); ("d", GPtr (GNamed "Decoder")); ("version", GInt I16)] [GNamed "error"]
  [SVar "err" (Some (GNamed "error")) None;
   SAssign [(EField (EVar "t") "Name"); (EVar "err")] [(EMethod (EVar "d") "String" [])];
   SIf [] (EBin Ne (EVar "err") ENil)
     [SReturn [(EVar "err")]]
     [];
   SIf [SDefine ["n"; "err"] [(EMethod (EVar "d") "ArrayLength" [])]] (EBin Ne (EVar "err") ENil)
     [SReturn [(EVar "err")]]
     [SIf [] (EBin Ge (EVar "n") (EInt 0))
       [SAssign [(EField (EVar "t") "Partitions")] [(EMake (GSlice (GNamed "TxnOffsetCommitResponsePartition28")) (EVar "n"))];
        SFor [SDefine ["i"] [(EInt 0)]] (EBin Lt (EVar "i") (EVar "n")) [SOp (EVar "i") Add (EInt 1)]
         [SVar "item" (Some (GNamed "TxnOffsetCommitResponsePartition28")) None;
          SIf [SDefine ["err"] [(EMethod (EAddr (EVar "item")) "Decode" [(EVar "d"); (EVar "version")])]] (EBin Ne (EVar "err") ENil)
           [SReturn [(EVar "err")]]
           [];
          SAssign [(EIndex (EField (EVar "t") "Partitions") (EVar "i"))] [(EVar "item")]]]
       []];
   SReturn [(EVar "err")]].
(** message/messages.gen.go:7629 *)
Definition go_TxnOffsetCommitResponsePartition28_Size : func := mkFunc [("t", GNamed "TxnOffsetCommitResponsePartition28"); ("version", GInt I16)] [GInt I32]
  [SVar "sz" (Some (GInt I32)) None;
   SOp (EVar "sz") Add (EGlobal "sizeof.Int32");
   SOp (EVar "sz") Add (EGlobal "sizeof.Int16");
   SReturn [(EVar "sz")]].
(** message/messages.gen.go:7637 *)
Definition go_TxnOffsetCommitResponsePartition28_Encode : func := mkFunc [("t", GNamed "TxnOffsetCommitResponsePartition28"); ("e", GPtr (GNamed "Encoder")); ("version", GInt I16)] []
  [SExpr (EMethod (EVar "e") "PutInt32" [(EField (EVar "t") "PartitionIndex")]);
   SExpr (EMethod (EVar "e") "PutInt16" [(EField (EVar "t") "ErrorCode")])].
(** message/messages.gen.go:7643 *)
Definition go_TxnOffsetCommitResponsePartition28_Decode : func := mkFunc [("t", GPtr (GNamed "TxnOffsetCommitResponsePartition28")); ("d", GPtr (GNamed "Decoder")); ("version", GInt I16)] [GNamed "error"]
  [SVar "err" (Some (GNamed "error")) None;
   SAssign [(EField (EVar "t") "PartitionIndex"); (EVar "err")] [(EMethod (EVar "d") "Int32" [])];
   SIf [] (EBin Ne (EVar "err") ENil)
     [SReturn [(EVar "err")]]
     [];
   SAssign [(EField (EVar "t") "ErrorCode"); (EVar "err")] [(EMethod (EVar "d") "Int16" [])];
   SIf [] (EBin Ne (EVar "err") ENil)
     [SReturn [(EVar "err")]]
     [];
   SReturn [(EVar "err")]].
(** message/messages.gen.go:7668 *)
Definition go_DescribeAclsRequest_Size : func := mkFunc [("t", GNamed "DescribeAclsRequest"); ("version", GInt I16)] [GInt I32]
  [SVar "sz" (Some (GInt I32)) None;
   SOp (EVar "sz") Add (EGlobal "sizeof.Int8");
   SOp (EVar "sz") Add (ECall "sizeof.String" [(EField (EVar "t") "ResourceNameFilter")]);
   SIf [] (EBin Ge (EVar "version") (EInt 1))
     [SOp (EVar "sz") Add (EGlobal "sizeof.Int8")]
     [];
   SOp (EVar "sz") Add (ECall "sizeof.String" [(EField (EVar "t") "PrincipalFilter")]);
   SOp (EVar "sz") Add (ECall "sizeof.String" [(EField (EVar "t") "HostFilter")]);
   SOp (EVar "sz") Add (EGlobal "sizeof.Int8");
   SOp (EVar "sz") Add (EGlobal "sizeof.Int8");
   SReturn [(EVar "sz")]].
(** message/messages.gen.go:7683 *)
Definition go_DescribeAclsRequest_Encode : func := mkFunc [("t", GNamed "DescribeAclsRequest"); ("e", GPtr (GNamed "Encoder")); ("version", GInt I16)] []
  [SExpr (EMethod (EVar "e") "PutInt8" [(EField (EVar "t") "ResourceType")]);
   SExpr (EMethod (EVar "e") "PutString" [(EField (EVar "t") "ResourceNameFilter")]);
   SIf [] (EBin Ge (EVar "version") (EInt 1))
     [SExpr (EMethod (EVar "e") "PutInt8" [(EField (EVar "t") "ResourcePatternType")])]
     [];
   SExpr (EMethod (EVar "e") "PutString" [(EField (EVar "t") "PrincipalFilter")]);
   SExpr (EMethod (EVar "e") "PutString" [(EField (EVar "t") "HostFilter")]);
   SExpr (EMethod (EVar "e") "PutInt8" [(EField (EVar "t") "Operation")]);
   SExpr (EMethod (EVar "e") "PutInt8" [(EField (EVar "t") "PermissionType")])].
(** message/messages.gen.go:7696 *)
Definition go_DescribeAclsRequest_Decode : func := mkFunc [("t", GPtr (GNamed "DescribeAclsRequest")); ("d", GPtr (GNamed "Decoder")); ("version", GInt I16)] [GNamed "error"]
  [SVar "err" (Some (GNamed "error")) None;
   SAssign [(EField (EVar "t") "ResourceType"); (EVar "err")] [(EMethod (EVar "d") "Int8" [])];
   SIf [] (EBin Ne (EVar "err") ENil)
     [SReturn [(EVar "err")]]
     [];
   SAssign [(EField (EVar "t") "ResourceNameFilter"); (EVar "err")] [(EMethod (EVar "d") "String" [])];
   SIf [] (EBin Ne (EVar "err") ENil)
     [SReturn [(EVar "err")]]
     [];
   SIf [] (EBin Ge (EVar "version") (EInt 1))
     [SAssign [(EField (EVar "t") "ResourcePatternType"); (EVar "err")] [(EMethod (EVar "d") "Int8" [])];
      SIf [] (EBin Ne (EVar "err") ENil)
       [SReturn [(EVar "err")]]
       []]
     [];
   SAssign [(EField (EVar "t") "PrincipalFilter"); (EVar "err")] [(EMethod (EVar "d") "String" [])];
   SIf [] (EBin Ne (EVar "err") ENil)
     [SReturn [(EVar "err")]]
     [];
   SAssign [(EField (EVar "t") "HostFilter"); (EVar "err")] [(EMethod (EVar "d") "String" [])];
   SIf [] (EBin Ne (EVar "err") ENil)
     [SReturn [(EVar "err")]]
     [];
   SAssign [(EField (EVar "t") "Operation"); (EVar "err")] [(EMethod (EVar "d") "Int8" [])];
   SIf [] (EBin Ne (EVar "err") ENil)
     [SReturn [(EVar "err")]]
     [];
   SAssign [(EField (EVar "t") "PermissionType"); (EVar "err")] [(EMethod (EVar "d") "Int8" [])];
   SIf [] (EBin Ne (EVar "err") ENil)
     [SReturn [(EVar "err")]]
     [];
   SReturn [(EVar "err")]].
(** message/messages.gen.go:7740 *)
Definition go_DescribeAclsResponse_Size : func := mkFunc [("t", GNamed "DescribeAclsResponse"); ("version", GInt I16)] [GInt I32]
  [SVar "sz" (Some (GInt I32)) None;
   SOp (EVar "sz") Add (EGlobal "sizeof.Int32");
   SOp (EVar "sz") Add (EGlobal "sizeof.Int16");
   SOp (EVar "sz") Add (ECall "sizeof.String" [(EField (EVar "t") "ErrorMessage")]);
   SOp (EVar "sz") Add (EGlobal "sizeof.ArrayLength");
   SFor [SDefine ["i"] [(EBin Sub (ELen (EField (EVar "t") "Resources")) (EInt 1))]] (EBin Ge (EVar "i") (EInt 0)) [SOp (EVar "i") Sub (EInt 1)]
     [SOp (EVar "sz") Add (EMethod (EIndex (EField (EVar "t") "Resources") (EVar "i")) "Size" [(EVar "version")])];
   SReturn [(EVar "sz")]].
(** message/messages.gen.go:7753 *)
Definition go_DescribeAclsResponse_Encode : func := mkFunc [("t", GNamed "DescribeAclsResponse"); ("e", GPtr (GNamed "Encoder")); ("version", GInt I16)] []
  [SExpr (EMethod (EVar "e") "PutInt32" [(EField (EVar "t") "ThrottleTimeMs")]);
   SExpr (EMethod (EVar "e") "PutInt16" [(EField (EVar "t") "ErrorCode")]);
   SExpr (EMethod (EVar "e") "PutString" [(EField (EVar "t") "ErrorMessage")]);
   SDefine ["len3"] [(ELen (EField (EVar "t") "Resources"))];
   SExpr (EMethod (EVar "e") "PutArrayLength" [(EVar "len3")]);
   SFor [SDefine ["i"] [(EInt 0)]] (EBin Lt (EVar "i") (EVar "len3")) [SOp (EVar "i") Add (EInt 1)]
     [SExpr (EMethod (EIndex (EField (EVar "t") "Resources") (EVar "i")) "Encode" [(EVar "e"); (EVar "version")])]].
(** message/messages.gen.go:7766 *)
Definition go_DescribeAclsResponse_Decode : func := mkFunc [("t", GPtr (GNamed "DescribeAclsResponse")); ("d", GPtr (GNamed "Decoder")); ("version", GInt I16)] [GNamed "error"]
  [SVar "err" (Some (GNamed "error")) None;
   SAssign [(EField (EVar "t") "ThrottleTimeMs"); (EVar "err")] [(EMethod (EVar "d") "Int32" [])];
   SIf [] (EBin Ne (EVar "err") ENil)
     [SReturn [(EVar "err")]]
     [];
   SAssign [(EField (EVar "t") "ErrorCode"); (EVar "err")] [(EMethod (EVar "d") "Int16" [])];
   SIf [] (EBin Ne (EVar "err") ENil)
     [SReturn [(EVar "err")]]
     [];
   SAssign [(EField (EVar "t") "ErrorMessage"); (EVar "err")] [(EMethod (EVar "d") "String" [])];
   SIf [] (EBin Ne (EVar "err") ENil)
     [SReturn [(EVar "err")]]
     [];
   SIf [SDefine ["n"; "err"] [(EMethod (EVar "d") "ArrayLength" [])]] (EBin Ne (EVar "err") ENil)
     [SReturn [(EVar "err")]]
     [SIf [] (EBin Ge (EVar "n") (EInt 0))
       [SAssign [(EField (EVar "t") "Resources")] [(EMake (GSlice (GNamed "DescribeAclsResource29")) (EVar "n"))];
        SFor [SDefine ["i"] [(EInt 0)]] (EBin Lt (EVar "i") (EVar "n")) [SOp (EVar "i") Add (EInt 1)]
         [SVar "item" (Some (GNamed "DescribeAclsResource29")) None;
          SIf [SDefine ["err"] [(EMethod (EAddr (EVar "item")) "Decode" [(EVar "d"); (EVar "version")])]] (EBin Ne (EVar "err") ENil)
           [SReturn [(EVar "err")]]
           [];
          SAssign [(EIndex (EField (EVar "t") "Resources") (EVar "i"))] [(EVar "item")]]]
       []];
   SReturn [(EVar "err")]].
(** message/messages.gen.go:7804 *)
Definition go_DescribeAclsResource29_Size : func := mkFunc [("t", GNamed "DescribeAclsResource29"); ("version", GInt I16)] [GInt I32]
  [SVar "sz" (Some (GInt I32)) None;
   SOp (EVar "sz") Add (EGlobal "sizeof.Int8");
   SOp (EVar "sz") Add (ECall "sizeof.String" [(EField (EVar "t") "Name")]);
   SIf [] (EBin Ge (EVar "version") (EInt 1))
     [SOp (EVar "sz") Add (EGlobal "sizeof.Int8")]
     [];
   SOp (EVar "sz") Add (EGlobal "sizeof.ArrayLength");
   SFor [SDefine ["i"] [(EBin Sub (ELen (EField (EVar "t") "Acls")) (EInt 1))]] (EBin Ge (EVar "i") (EInt 0)) [SOp (EVar "i") Sub (EInt 1)]
     [SOp (EVar "sz") Add (EMethod (EIndex (EField (EVar "t") "Acls") (EVar "i")) "Size" [(EVar "version")])];
   SReturn [(EVar "sz")]].
(** message/messages.gen.go:7819 *)
Definition go_DescribeAclsResource29_Encode : func := mkFunc [("t", GNamed "DescribeAclsResource29"); ("e", GPtr (GNamed "Encoder")); ("version", GInt I16)] []
  [SExpr (EMethod (EVar "e") "PutInt8" [(EField (EVar "t") "Type")]);
   SExpr (EMethod (EVar "e") "PutString" [(EField (EVar "t") "Name")]);
   SIf [] (EBin Ge (EVar "version") (EInt 1))
     [SExpr (EMethod (EVar "e") "PutInt8" [(EField (EVar "t") "PatternType")])]
     [];
   SDefine ["len3"] [(ELen (EField (EVar "t") "Acls"))];
   SExpr (EMethod (EVar "e") "PutArrayLength" [(EVar "len3")]);
   SFor [SDefine ["i"] [(EInt 0)]] (EBin Lt (EVar "i") (EVar "len3")) [SOp (EVar "i") Add (EInt 1)]
     [SExpr (EMethod (EIndex (EField (EVar "t") "Acls") (EVar "i")) "Encode" [(EVar "e"); (EVar "version")])]].
(** message/messages.gen.go:7834 *)
Definition go_DescribeAclsResource29_Decode : func := mkFunc [("t", GPtr (GNamed "DescribeAclsResource29")); ("d", GPtr (GNamed "Decoder")); ("version", GInt I16)] [GNamed "error"]
  [SVar "err" (Some (GNamed "error")) None;
   SAssign [(EField (EVar "t") "Type"); (EVar "err")] [(EMethod (EVar "d") "Int8" [])];
   SIf [] (EBin Ne (EVar "err") ENil)
     [SReturn [(EVar "err")]]
     [];
   SAssign [(EField (EVar "t") "Name"); (EVar "err")] [(EMethod (EVar "d") "String" [])];
   SIf [] (EBin Ne (EVar "err") ENil)
     [SReturn [(EVar "err")]]
     [];
   SIf [] (EBin Ge (EVar "version") (EInt 1))
     [SAssign [(EField (EVar "t") "PatternType"); (EVar "err")] [(EMethod (EVar "d") "Int8" [])];
      SIf [] (EBin Ne (EVar "err") ENil)
       [SReturn [(EVar "err")]]
       []]
     [];
   SIf [SDefine ["n"; "err"] [(EMethod (EVar "d") "ArrayLength" [])]] (EBin Ne (EVar "err") ENil)
     [SReturn [(EVar "err")]]
     [SIf [] (EBin Ge (EVar "n") (EInt 0))
       [SAssign [(EField (EVar "t") "Acls")] [(EMake (GSlice (GNamed "AclDescription29")) (EVar "n"))];
        SFor [SDefine ["i"] [(EInt 0)]] (EBin Lt (EVar "i") (EVar "n")) [SOp (EVar "i") Add (EInt 1)]
         [SVar "item" (Some (GNamed "AclDescription29")) None;
          SIf [SDefine ["err"] [(EMethod (EAddr (EVar "item")) "Decode" [(EVar "d"); (EVar "version")])]] (EBin Ne (EVar "err") ENil)
           [SReturn [(EVar "err")]]
           [];
          SAssign [(EIndex (EField (EVar "t") "Acls") (EVar "i"))] [(EVar "item")]]]
       []];
   SReturn [(EVar "err")]].
(** message/messages.gen.go:7874 *)
Definition go_AclDescription29_Size : func := mkFunc [("t", GNamed "AclDescription29"); ("version", GInt I16)] [GInt I32]
  [SVar "sz" (Some (GInt I32)) None;
   SOp (EVar "sz") Add (ECall "sizeof.String" [(EField (EVar "t") "Principal")]);
   SOp (EVar "sz") Add (ECall "sizeof.String" [(EField (EVar "t") "Host")]);
   SOp (EVar "sz") Add (EGlobal "sizeof.Int8");
   SOp (EVar "sz") Add (EGlobal "sizeof.Int8");
   SReturn [(EVar "sz")]].
(** message/messages.gen.go:7884 *)
Definition go_AclDescription29_Encode : func := mkFunc [("t", GNamed "AclDescription29"); ("e", GPtr (GNamed "Encoder")); ("version", GInt I16)] []
  [SExpr (EMethod (EVar "e") "PutString" [(EField (EVar "t") "Principal")]);
   SExpr (EMethod (EVar "e") "PutString" [(EField (EVar "t") "Host")]);
   SExpr (EMethod (EVar "e") "PutInt8" [(EField (EVar "t") "Operation")]);
   SExpr (EMethod (EVar "e") "PutInt8" [(EField (EVar "t") "PermissionType")])].
(** message/messages.gen.go:7892 *)
Definition go_AclDescription29_Decode : func := mkFunc [("t", GPtr (GNamed "AclDescription29")); ("d", GPtr (GNamed "Decoder")); ("version", GInt I16)] [GNamed "error"]
  [SVar "err" (Some (GNamed "error")) None;
   SAssign [(EField (EVar "t") "Principal"); (EVar "err")] [(EMethod (EVar "d") "String" [])];
   SIf [] (EBin Ne (EVar "err") ENil)
     [SReturn [(EVar "err")]]
     [];
   SAssign [(EField (EVar "t") "Host"); (EVar "err")] [(EMethod (EVar "d") "String" [])];
   SIf [] (EBin Ne (EVar "err") ENil)
     [SReturn [(EVar "err")]]
     [];
   SAssign [(EField (EVar "t") "Operation"); (EVar "err")] [(EMethod (EVar "d") "Int8" [])];
   SIf [] (EBin Ne (EVar "err") ENil)
     [SReturn [(EVar "err")]]
     [];
   SAssign [(EField (EVar "t") "PermissionType"); (EVar "err")] [(EMethod (EVar "d") "Int8" [])];
   SIf [] (EBin Ne (EVar "err") ENil)
     [SReturn [(EVar "err")]]
     [];
   SReturn [(EVar "err")]].
(** message/messages.gen.go:7919 *)
Definition go_CreateAclsRequest_Size : func := mkFunc [("t", GNamed "CreateAclsRequest"); ("version", GInt I16)] [GInt I32]
  [SVar "sz" (Some (GInt I32)) None;
   SOp (EVar "sz") Add (EGlobal "sizeof.ArrayLength");
   SFor [SDefine ["i"] [(EBin Sub (ELen (EField (EVar "t") "Creations")) (EInt 1))]] (EBin Ge (EVar "i") (EInt 0)) [SOp (EVar "i") Sub (EInt 1)]
     [SOp (EVar "sz") Add (EMethod (EIndex (EField (EVar "t") "Creations") (EVar "i")) "Size" [(EVar "version")])];
   SReturn [(EVar "sz")]].
(** message/messages.gen.go:7929 *)
Definition go_CreateAclsRequest_Encode : func := mkFunc [("t", GNamed "CreateAclsRequest"); ("e", GPtr (GNamed "Encoder")); ("version", GInt I16)] []
  [SDefine ["len0"] [(ELen (EField (EVar "t") "Creations"))];
   SExpr (EMethod (EVar "e") "PutArrayLength" [(EVar "len0")]);
   SFor [SDefine ["i"] [(EInt 0)]] (EBin Lt (EVar "i") (EVar "len0")) [SOp (EVar "i") Add (EInt 1)]
     [SExpr (EMethod (EIndex (EField (EVar "t") "Creations") (EVar "i")) "Encode" [(EVar "e"); (EVar "version")])]].
(** message/messages.gen.go:7939 *)
Definition go_CreateAclsRequest_Decode : func := mkFunc [("t", GPtr (GNamed "CreateAclsRequest")); ("d", GPtr (GNamed "Decoder")); ("version", GInt I16)] [GNamed "error"]
  [SVar "err" (Some (GNamed "error")) None;
   SIf [SDefine ["n"; "err"] [(EMethod (EVar "d") "ArrayLength" [])]] (EBin Ne (EVar "err") ENil)
     [SReturn [(EVar "err")]]
     [SIf [] (EBin Ge (EVar "n") (EInt 0))
       [SAssign [(EField (EVar "t") "Creations")] [(EMake (GSlice (GNamed "CreatableAcl30")) (EVar "n"))];
        SFor [SDefine ["i"] [(EInt 0)]] (EBin Lt (EVar "i") (EVar "n")) [SOp (EVar "i") Add (EInt 1)]
         [SVar "item" (Some (GNamed "CreatableAcl30")) None;
          SIf [SDefine ["err"] [(EMethod (EAddr (EVar "item")) "Decode" [(EVar "d"); (EVar "version")])]] (EBin Ne (EVar "err") ENil)
           [SReturn [(EVar "err")]]
           [];
          SAssign [(EIndex (EField (EVar "t") "Creations") (EVar "i"))] [(EVar "item")]]]
       []];
   SReturn [(EVar "err")]].
(** message/messages.gen.go:7968 *)
Definition go_CreatableAcl30_Size : func := mkFunc [("t", GNamed "CreatableAcl30"); ("version", GInt I16)] [GInt I32]
  [SVar "sz" (Some (GInt I32)) None;
   SOp (EVar "sz") Add (EGlobal "sizeof.Int8");
   SOp (EVar "sz") Add (ECall "sizeof.String" [(EField (EVar "t") "ResourceName")]);
   SIf [] (EBin Ge (EVar "version") (EInt 1))
     [SOp (EVar "sz") Add (EGlobal "sizeof.Int8")]
     [];
   SOp (EVar "sz") Add (ECall "sizeof.String" [(EField (EVar "t") "Principal")]);
   SOp (EVar "sz") Add (ECall "sizeof.String" [(EField (EVar "t") "Host")]);
   SOp (EVar "sz") Add (EGlobal "sizeof.Int8");
   SOp (EVar "sz") Add (EGlobal "sizeof.Int8");
   SReturn [(EVar "sz")]].
(** message/messages.gen.go:7983 *)
Definition go_CreatableAcl30_Encode : func := mkFunc [("t", GNamed "CreatableAcl30"); ("e", GPtr (GNamed "Encoder")); ("version", GInt I16)] []
  [SExpr (EMethod (EVar "e") "PutInt8" [(EField (EVar "t") "ResourceType")]);
   SExpr (EMethod (EVar "e") "PutString" [(EField (EVar "t") "ResourceName")]);
   SIf [] (EBin Ge (EVar "version") (EInt 1))
     [SExpr (EMethod (EVar "e") "PutInt8" [(EField (EVar "t") "ResourcePatternType")])]
     [];
   SExpr (EMethod (EVar "e") "PutString" [(EField (EVar "t") "Principal")]);
   SExpr (EMethod (EVar "e") "PutString" [(EField (EVar "t") "Host")]);
   SExpr (EMethod (EVar "e") "PutInt8" [(EField (EVar "t") "Operation")]);
   SExpr (EMethod (EVar "e") "PutInt8" [(EField (EVar "t") "PermissionType")])].
(** message/messages.gen.go:7996 *)
Definition go_CreatableAcl30_Decode : func := mkFunc [("t", GPtr (GNamed "CreatableAcl30")); ("d", GPtr (GNamed "Decoder")); ("version", GInt I16)] [GNamed "error"]
  [SVar "err" (Some (GNamed "error")) None;
   SAssign [(EField (EVar "t") "ResourceType"); (EVar "err")] [(EMethod (EVar "d") "Int8" [])];
   SIf [] (EBin Ne (EVar "err") ENil)
     [SReturn [(EVar "err")]]
     [];
   SAssign [(EField (EVar "t") "ResourceName"); (EVar "err")] [(EMethod (EVar "d") "String" [])];
   SIf [] (EBin Ne (EVar "err") ENil)
     [SReturn [(EVar "err")]]
     [];
   SIf [] (EBin Ge (EVar "version") (EInt 1))
     [SAssign [(EField (EVar "t") "ResourcePatternType"); (EVar "err")] [(EMethod (EVar "d") "Int8" [])];
      SIf [] (EBin Ne (EVar "err") ENil)
       [SReturn [(EVar "err")]]
       []]
     [];
   SAssign [(EField (EVar "t") "Principal"); (EVar "err")] [(EMethod (EVar "d") "String" [])];
   SIf [] (EBin Ne (EVar "err") ENil)
     [SReturn [(EVar "err")]]
     [];
   SAssign [(EField (EVar "t") "Host"); (EVar "err")] [(EMethod (EVar "d") "String" [])];
   SIf [] (EBin Ne (EVar "err") ENil)
     [SReturn [(EVar "err")]]
     [];
   SAssign [(EField (EVar "t") "Operation"); (EVar "err")] [(EMethod (EVar "d") "Int8" [])];
   SIf [] (EBin Ne (EVar "err") ENil)
     [SReturn [(EVar "err")]]
     [];
   SAssign [(EField (EVar "t") "PermissionType"); (EVar "err")] [(EMethod (EVar "d") "Int8" [])];
   SIf [] (EBin Ne (EVar "err") ENil)
     [SReturn [(EVar "err")]]
     [];
   SReturn [(EVar "err")]].
(** message/messages.gen.go:8038 *)
Definition go_CreateAclsResponse_Size : func := mkFunc [("t", GNamed "CreateAclsResponse"); ("version", GInt I16)] [GInt I32]
  [SVar "sz" (Some (GInt I32)) None;
   SOp (EVar "sz") Add (EGlobal "sizeof.Int32");
   SOp (EVar "sz") Add (EGlobal "sizeof.ArrayLength");
   SFor [SDefine ["i"] [(EBin Sub (ELen (EField (EVar "t") "Results")) (EInt 1))]] (EBin Ge (EVar "i") (EInt 0)) [SOp (EVar "i") Sub (EInt 1)]
     [SOp (EVar "sz") Add (EMethod (EIndex (EField (EVar "t") "Results") (EVar "i")) "Size" [(EVar "version")])];
   SReturn [(EVar "sz")]].
(** message/messages.gen.go:8049 *)
Definition go_CreateAclsResponse_Encode : func := mkFunc [("t", GNamed "CreateAclsResponse"); ("e", GPtr (GNamed "Encoder")); ("version", GInt I16)] []
  [SExpr (EMethod (EVar "e") "PutInt32" [(EField (EVar "t") "ThrottleTimeMs")]);
   SDefine ["len1"] [(ELen (EField (EVar "t") "Results"))];
   SExpr (EMethod (EVar "e") "PutArrayLength" [(EVar "len1")]);
   SFor [SDefine ["i"] [(EInt 0)]] (EBin Lt (EVar "i") (EVar "len1")) [SOp (EVar "i") Add (EInt 1)]
     [SExpr (EMethod (EIndex (EField (EVar "t") "Results") (EVar "i")) "Encode" [(EVar "e"); (EVar "version")])]].
(** message/messages.gen.go:8060 *)
Definition go_CreateAclsResponse_Decode : func := mkFunc [("t", GPtr (GNamed "CreateAclsResponse")); ("d", GPtr (GNamed "Decoder")); ("version", GInt I16)] [GNamed "error"]
  [SVar "err" (Some (GNamed "error")) None;
   SAssign [(EField (EVar "t") "ThrottleTimeMs"); (EVar "err")] [(EMethod (EVar "d") "Int32" [])];
   SIf [] (EBin Ne (EVar "err") ENil)
     [SReturn [(EVar "err")]]
     [];
   SIf [SDefine ["n"; "err"] [(EMethod (EVar "d") "ArrayLength" [])]] (EBin Ne (EVar "err") ENil)
     [SReturn [(EVar "err")]]
     [SIf [] (EBin Ge (EVar "n") (EInt 0))
       [SAssign [(EField (EVar "t") "Results")] [(EMake (GSlice (GNamed "CreatableAclResult30")) (EVar "n"))];
        SFor [SDefine ["i"] [(EInt 0)]] (EBin Lt (EVar "i") (EVar "n")) [SOp (EVar "i") Add (EInt 1)]
         [SVar "item" (Some (GNamed "CreatableAclResult30")) None;
          SIf [SDefine ["err"] [(EMethod (EAddr (EVar "item")) "Decode" [(EVar "d"); (EVar "version")])]] (EBin Ne (EVar "err") ENil)
           [SReturn [(EVar "err")]]
           [];
          SAssign [(EIndex (EField (EVar "t") "Results") (EVar "i"))] [(EVar "item")]]]
       []];
   SReturn [(EVar "err")]].
(** message/messages.gen.go:8088 *)
Definition go_CreatableAclResult30_Size : func := mkFunc [("t", GNamed "CreatableAclResult30"); ("version", GInt I16)] [GInt I32]
  [SVar "sz" (Some (GInt I32)) None;
   SOp (EVar "sz") Add (EGlobal "sizeof.Int16");
   SOp (EVar "sz") Add (ECall "sizeof.String" [(EField (EVar "t") "ErrorMessage")]);
   SReturn [(EVar "sz")]].
(** message/messages.gen.go:8096 *)
Definition go_CreatableAclResult30_Encode : func := mkFunc [("t", GNamed "CreatableAclResult30"); ("e", GPtr (GNamed "Encoder")); ("version", GInt I16)] []
  [SExpr (EMethod (EVar "e") "PutInt16" [(EField (EVar "t") "ErrorCode")]);
   SExpr (EMethod (EVar "e") "PutString" [(EField (EVar "t") "ErrorMessage")])].
(** message/messages.gen.go:8102 *)
Definition go_CreatableAclResult30_Decode : func := mkFunc [("t", GPtr (GNamed "CreatableAclResult30")); ("d", GPtr (GNamed "Decoder")); ("version", GInt I16)] [GNamed "error"]
  [SVar "err" (Some (GNamed "error")) None;
   SAssign [(EField (EVar "t") "ErrorCode"); (EVar "err")] [(EMethod (EVar "d") "Int16" [])];
   SIf [] (EBin Ne (EVar "err") ENil)
     [SReturn [(EVar "err")]]
     [];
   SAssign [(EField (EVar "t") "ErrorMessage"); (EVar "err")] [(EMethod (EVar "d") "String" [])];
   SIf [] (EBin Ne (EVar "err") ENil)
     [SReturn [(EVar "err")]]
     [];
   SReturn [(EVar "err")]].
(** message/messages.gen.go:8121 *)
Definition go_DeleteAclsRequest_Size : func := mkFunc [("t", GNamed "DeleteAclsRequest"); ("version", GInt I16)] [GInt I32]
  [SVar "sz" (Some (GInt I32)) None;
   SOp (EVar "sz") Add (EGlobal "sizeof.ArrayLength");
   SFor [SDefine ["i"] [(EBin Sub (ELen (EField (EVar "t") "Filters")) (EInt 1))]] (EBin Ge (EVar "i") (EInt 0)) [SOp (EVar "i") Sub (EInt 1)]
     [SOp (EVar "sz") Add (EMethod (EIndex (EField (EVar "t") "Filters") (EVar "i")) "Size" [(EVar "version")])];
   SReturn [(EVar "sz")]].
(** message/messages.gen.go:8131 *)
Definition go_DeleteAclsRequest_Encode : func := mkFunc [("t", GNamed "DeleteAclsRequest"); ("e", GPtr (GNamed "Encoder")); ("version", GInt I16)] []
  [SDefine ["len0"] [(ELen (EField (EVar "t") "Filters"))];
   SExpr (EMethod (EVar "e") "PutArrayLength" [(EVar "len0")]);
   SFor [SDefine ["i"] [(EInt 0)]] (EBin Lt (EVar "i") (EVar "len0")) [SOp (EVar "i") Add (EInt 1)]
     [SExpr (EMethod (EIndex (EField (EVar "t") "Filters") (EVar "i")) "Encode" [(EVar "e"); (EVar "version")])]].
(** message/messages.gen.go:8141 *)
Definition go_DeleteAclsRequest_Decode : func := mkFunc [("t", GPtr (GNamed "DeleteAclsRequest")); ("d", GPtr (GNamed "Decoder")); ("version", GInt I16)] [GNamed "error"]
  [SVar "err" (Some (GNamed "error")) None;
   SIf [SDefine ["n"; "err"] [(EMethod (EVar "d") "ArrayLength" [])]] (EBin Ne (EVar "err") ENil)
     [SReturn [(EVar "err")]]
     [SIf [] (EBin Ge (EVar "n") (EInt 0))
       [SAssign [(EField (EVar "t") "Filters")] [(EMake (GSlice (GNamed "DeleteAclsFilter31")) (EVar "n"))];
        SFor [SDefine ["i"] [(EInt 0)]] (EBin Lt (EVar "i") (EVar "n")) [SOp (EVar "i") Add (EInt 1)]
         [SVar "item" (Some (GNamed "DeleteAclsFilter31")) None;
          SIf [SDefine ["err"] [(EMethod (EAddr (EVar "item")) "Decode" [(EVar "d"); (EVar "version")])]] (EBin Ne (EVar "err") ENil)
           [SReturn [(EVar "err")]]
           [];
          SAssign [(EIndex (EField (EVar "t") "Filters") (EVar "i"))] [(EVar "item")]]]
       []];
   SReturn [(EVar "err")]].
(** message/messages.gen.go:8170 *)
Definition go_DeleteAclsFilter31_Size : func := mkFunc [("t", GNamed "DeleteAclsFilter31"); ("version", GInt I16)] [GInt I32]
  [SVar "sz" (Some (GInt I32)) None;
   SOp (EVar "sz") Add (EGlobal "sizeof.Int8");
   SOp (EVar "sz") Add (ECall "sizeof.String" [(EField (EVar "t") "ResourceNameFilter")]);
   SIf [] (EBin Ge (EVar "version") (EInt 1))
     [SOp (EVar "sz") Add (EGlobal "sizeof.Int8")]
     [];
   SOp (EVar "sz") Add (ECall "sizeof.String" [(EField (EVar "t") "PrincipalFilter")]);
   SOp (EVar "sz") Add (ECall "sizeof.String" [(EField (EVar "t") "HostFilter")]);
   SOp (EVar "sz") Add (EGlobal "sizeof.Int8");
   SOp (EVar "sz") Add (EGlobal "sizeof.Int8");
   SReturn [(EVar "sz")]].
(** message/messages.gen.go:8185 *)
Definition go_DeleteAclsFilter31_Encode : func := mkFunc [("t", GNamed "DeleteAclsFilter31"); ("e", GPtr (GNamed "Encoder")); ("version", GInt I16)] []
  [SExpr (EMethod (EVar "e") "PutInt8" [(EField (EVar "t") "ResourceTypeFilter")]);
   SExpr (EMethod (EVar "e") "PutString" [(EField (EVar "t") "ResourceNameFilter")]);
   SIf [] (EBin Ge (EVar "version") (EInt 1))
     [SExpr (EMethod (EVar "e") "PutInt8" [(EField (EVar "t") "PatternTypeFilter")])]
     [];
   SExpr (EMethod (EVar "e") "PutString" [(EField (EVar "t") "PrincipalFilter")]);
   SExpr (EMethod (EVar "e") "PutString" [(EField (EVar "t") "HostFilter")]);
   SExpr (EMethod (EVar "e") "PutInt8" [(EField (EVar "t") "Operation")]);
   SExpr (EMethod (EVar "e") "PutInt8" [(EField (EVar "t") "PermissionType")])].
(** message/messages.gen.go:8198 *)
Definition go_DeleteAclsFilter31_Decode : func := mkFunc [("t", GPtr (GNamed "DeleteAclsFilter31")); ("d", GPtr (GNamed "Decoder")); ("version", GInt I16)] [GNamed "error"]
  [SVar "err" (Some (GNamed "error")) None;
   SAssign [(EField (EVar "t") "ResourceTypeFilter"); (EVar "err")] [(EMethod (EVar "d") "Int8" [])];
   SIf [] (EBin Ne (EVar "err") ENil)
     [SReturn [(EVar "err")]]
     [];
   SAssign [(EField (EVar "t") "ResourceNameFilter"); (EVar "err")] [(EMethod (EVar "d") "String" [])];
   SIf [] (EBin Ne (EVar "err") ENil)
     [SReturn [(EVar "err")]]
     [];
   SIf [] (EBin Ge (EVar "version") (EInt 1))
     [SAssign [(EField (EVar "t") "PatternTypeFilter"); (EVar "err")] [(EMethod (EVar "d") "Int8" [])];
      SIf [] (EBin Ne (EVar "err") ENil)
       [SReturn [(EVar "err")]]
       []]
     [];
   SAssign [(EField (EVar "t") "PrincipalFilter"); (EVar "err")] [(EMethod (EVar "d") "String" [])];
   SIf [] (EBin Ne (EVar "err") ENil)
     [SReturn [(EVar "err")]]
     [];
   SAssign [(EField (EVar "t") "HostFilter"); (EVar "err")] [(EMethod (EVar "d") "String" [])];
   SIf [] (EBin Ne (EVar "err") ENil)
     [SReturn [(EVar "err")]]
     [];
   SAssign [(EField (EVar "t") "Operation"); (EVar "err")] [(EMethod (EVar "d") "Int8" [])];
   SIf [] (EBin Ne (EVar "err") ENil)
     [SReturn [(EVar "err")]]
     [];
   SAssign [(EField (EVar "t") "PermissionType"); (EVar "err")] [(EMethod (EVar "d") "Int8" [])];
   SIf [] (EBin Ne (EVar "err") ENil)
     [SReturn [(EVar "err")]]
     [];
   SReturn [(EVar "err")]].
(** message/messages.gen.go:8240 *)
Definition go_DeleteAclsResponse_Size : func := mkFunc [("t", GNamed "DeleteAclsResponse"); ("version", GInt I16)] [GInt I32]
  [SVar "sz" (Some (GInt I32)) None;
   SOp (EVar "sz") Add (EGlobal "sizeof.Int32");
   SOp (EVar "sz") Add (EGlobal "sizeof.ArrayLength");
   SFor [SDefine ["i"] [(EBin Sub (ELen (EField (EVar "t") "FilterResults")) (EInt 1))]] (EBin Ge (EVar "i") (EInt 0)) [SOp (EVar "i") Sub (EInt 1)]
     [SOp (EVar "sz") Add (EMethod (EIndex (EField (EVar "t") "FilterResults") (EVar "i")) "Size" [(EVar "version")])];
   SReturn [(EVar "sz")]].
(** message/messages.gen.go:8251 *)
Definition go_DeleteAclsResponse_Encode : func := mkFunc [("t", GNamed "DeleteAclsResponse"); ("e", GPtr (GNamed "Encoder")); ("version", GInt I16)] []
  [SExpr (EMethod (EVar "e") "PutInt32" [(EField (EVar "t") "ThrottleTimeMs")]);
   SDefine ["len1"] [(ELen (EField (EVar "t") "FilterResults"))];
   SExpr (EMethod (EVar "e") "PutArrayLength" [(EVar "len1")]);
   SFor [SDefine ["i"] [(EInt 0)]] (EBin Lt (EVar "i") (EVar "len1")) [SOp (EVar "i") Add (EInt 1)]
     [SExpr (EMethod (EIndex (EField (EVar "t") "FilterResults") (EVar "i")) "Encode" [(EVar "e"); (EVar "version")])]].
(** message/messages.gen.go:8262 *)
Definition go_DeleteAclsResponse_Decode : func := mkFunc [("t", GPtr (GNamed "DeleteAclsResponse")); ("d", GPtr (GNamed "Decoder")); ("version", GInt I16)] [GNamed "error"]
  [SVar "err" (Some (GNamed "error")) None;
   SAssign [(EField (EVar "t") "ThrottleTimeMs"); (EVar "err")] [(EMethod (EVar "d") "Int32" [])];
   SIf [] (EBin Ne (EVar "err") ENil)
     [SReturn [(EVar "err")]]
     [];
   SIf [SDefine ["n"; "err"] [(EMethod (EVar "d") "ArrayLength" [])]] (EBin Ne (EVar "err") ENil)
     [SReturn [(EVar "err")]]
     [SIf [] (EBin Ge (EVar "n") (EInt 0))
       [SAssign [(EField (EVar "t") "FilterResults")] [(EMake (GSlice (GNamed "DeleteAclsFilterResult31")) (EVar "n"))];
        SFor [SDefine ["i"] [(EInt 0)]] (EBin Lt (EVar "i") (EVar "n")) [SOp (EVar "i") Add (EInt 1)]
         [SVar "item" (Some (GNamed "DeleteAclsFilterResult31")) None;
          SIf [SDefine ["err"] [(EMethod (EAddr (EVar "item")) "Decode" [(EVar "d"); (EVar "version")])]] (EBin Ne (EVar "err") ENil)
           [SReturn [(EVar "err")]]
           [];
          SAssign [(EIndex (EField (EVar "t") "FilterResults") (EVar "i"))] [(EVar "item")]]]
       []];
   SReturn [(EVar "err")]].
(** message/messages.gen.go:8291 *)
Definition go_DeleteAclsFilterResult31_Size : func := mkFunc [("t", GNamed "DeleteAclsFilterResult31"); ("version", GInt I16)] [GInt I32]
  [SVar "sz" (Some (GInt I32)) None;
   SOp (EVar "sz") Add (EGlobal "sizeof.Int16");
   SOp (EVar "sz") Add (ECall "sizeof.String" [(EField (EVar "t") "ErrorMessage")]);
   SOp (EVar "sz") Add (EGlobal "sizeof.ArrayLength");
   SFor [SDefine ["i"] [(EBin Sub (ELen (EField (EVar "t") "MatchingAcls")) (EInt 1))]] (EBin Ge (EVar "i") (EInt 0)) [SOp (EVar "i") Sub (EInt 1)]
     [SOp (EVar "sz") Add (EMethod (EIndex (EField (EVar "t") "MatchingAcls") (EVar "i")) "Size" [(EVar "version")])];
   SReturn [(EVar "sz")]].
(** message/messages.gen.go:8303 *)
Definition go_DeleteAclsFilterResult31_Encode : func := mkFunc [("t", GNamed "DeleteAclsFilterResult31"); ("e", GPtr (GNamed "Encoder")); ("version", GInt I16)] []
  [SExpr (EMethod (EVar "e") "PutInt16" [(EField (EVar "t") "ErrorCode")]);
   SExpr (EMethod (EVar "e") "PutString" [(EField (EVar "t") "ErrorMessage")]);
   SDefine ["len2"] [(ELen (EField (EVar "t") "MatchingAcls"))];
   SExpr (EMethod (EVar "e") "PutArrayLength" [(EVar "len2")]);
   SFor [SDefine ["i"] [(EInt 0)]] (EBin Lt (EVar "i") (EVar "len2")) [SOp (EVar "i") Add (EInt 1)]
     [SExpr (EMethod (EIndex (EField (EVar "t") "MatchingAcls") (EVar "i")) "Encode" [(EVar "e"); (EVar "version")])]].
(** message/messages.gen.go:8315 *)
Definition go_DeleteAclsFilterResult31_Decode : func := mkFunc [("t", GPtr (GNamed "DeleteAclsFilterResult31")); ("d", GPtr (GNamed "Decoder")); ("version", GInt I16)] [GNamed "error"]
  [SVar "err" (Some (GNamed "error")) None;
   SAssign [(EField (EVar "t") "ErrorCode"); (EVar "err")] [(EMethod (EVar "d") "Int16" [])];
   SIf [] (EBin Ne (EVar "err") ENil)
     [SReturn [(EVar "err")]]
     [];
   SAssign [(EField (EVar "t") "ErrorMessage"); (EVar "err")] [(EMethod (EVar "d") "String" [])];
   SIf [] (EBin Ne (EVar "err") ENil)
     [SReturn [(EVar "err")]]
     [];
   SIf [SDefine ["n"; "err"] [(EMethod (EVar "d") "ArrayLength" [])]] (EBin Ne (EVar "err") ENil)
     [SReturn [(EVar "err")]]
     [SIf [] (EBin Ge (EVar "n") (EInt 0))
       [SAssign [(EField (EVar "t") "MatchingAcls")] [(EMake (GSlice (GNamed "DeleteAclsMatchingAcl31")) (EVar "n"))];
        SFor [SDefine ["i"] [(EInt 0)]] (EBin Lt (EVar "i") (EVar "n")) [SOp (EVar "i") Add (EInt 1)]
         [SVar "item" (Some (GNamed "DeleteAclsMatchingAcl31")) None;
          SIf [SDefine ["err"] [(EMethod (EAddr (EVar "item")) "Decode" [(EVar "d"); (EVar "version")])]] (EBin Ne (EVar "err") ENil)
           [SReturn [(EVar "err")]]
           [];
          SAssign [(EIndex (EField (EVar "t") "MatchingAcls") (EVar "i"))] [(EVar "item")]]]
       []];
   SReturn [(EVar "err")]].
(** message/messages.gen.go:8354 *)
Definition go_DeleteAclsMatchingAcl31_Size : func := mkFunc [("t", GNamed "DeleteAclsMatchingAcl31"); ("version", GInt I16)] [GInt I32]
  [SVar "sz" (Some (GInt I32)) None;
   SOp (EVar "sz") Add (EGlobal "sizeof.Int16");
   SOp (EVar "sz") Add (ECall "sizeof.String" [(EField (EVar "t") "ErrorMessage")]);
   SOp (EVar "sz") Add (EGlobal "sizeof.Int8");
   SOp (EVar "sz") Add (ECall "sizeof.String" [(EField (EVar "t") "ResourceName")]);
   SIf [] (EBin Ge (EVar "version") (EInt 1))
     [SOp (EVar "sz") Add (EGlobal "sizeof.Int8")]
     [];
   SOp (EVar "sz") Add (ECall "sizeof.String" [(EField (EVar "t") "Principal")]);
   SOp (EVar "sz") Add (ECall "sizeof.String" [(EField (EVar "t") "Host")]);
   SOp (EVar "sz") Add (EGlobal "sizeof.Int8");
   SOp (EVar "sz") Add (EGlobal "sizeof.Int8");
   SReturn [(EVar "sz")]].
(** message/messages.gen.go:8371 *)
Definition go_DeleteAclsMatchingAcl31_Encode : func := mkFunc [("t", GNamed "DeleteAclsMatchingAcl31"); ("e", GPtr (GNamed "Encoder")); ("version", GInt I16)] []
  [SExpr (EMethod (EVar "e") "PutInt16" [(EField (EVar "t") "ErrorCode")]);
   SExpr (EMethod (EVar "e") "PutString" [(EField (EVar "t") "ErrorMessage")]);
   SExpr (EMethod (EVar "e") "PutInt8" [(EField (EVar "t") "ResourceType")]);
   SExpr (EMethod (EVar "e") "PutString" [(EField (EVar "t") "ResourceName")]);
   SIf [] (EBin Ge (EVar "version") (EInt 1))
     [SExpr (EMethod (EVar "e") "PutInt8" [(EField (EVar "t") "PatternType")])]
     [];
   SExpr (EMethod (EVar "e") "PutString" [(EField (EVar "t") "Principal")]);
   SExpr (EMethod (EVar "e") "PutString" [(EField (EVar "t") "Host")]);
   SExpr (EMethod (EVar "e") "PutInt8" [(EField (EVar "t") "Operation")]);
   SExpr (EMethod (EVar "e") "PutInt8" [(EField (EVar "t") "PermissionType")])].
(** message/messages.gen.go:8386 *)
Definition go_DeleteAclsMatchingAcl31_Decode : func := mkFunc [("t", GPtr (GNamed "DeleteAclsMatchingAcl31")); ("d", GPtr (GNamed "Decoder")); ("version", GInt I16)] [GNamed "error"]
  [SVar "err" (Some (GNamed "error")) None;
   SAssign [(EField (EVar "t") "ErrorCode"); (EVar "err")] [(EMethod (EVar "d") "Int16" [])];
   SIf [] (EBin Ne (EVar "err") ENil)
     [SReturn [(EVar "err")]]
     [];
   SAssign [(EField (EVar "t") "ErrorMessage"); (EVar "err")] [(EMethod (EVar "d") "String" [])];
   SIf [] (EBin Ne (EVar "err") ENil)
     [SReturn [(EVar "err")]]
     [];
   SAssign [(EField (EVar "t") "ResourceType"); (EVar "err")] [(EMethod (EVar "d") "Int8" [])];
   SIf [] (EBin Ne (EVar "err") ENil)
     [SReturn [(EVar "err")]]
     [];
   SAssign [(EField (EVar "t") "ResourceName"); (EVar "err")] [(EMethod (EVar "d") "String" [])];
   SIf [] (EBin Ne (EVar "err") ENil)
     [SReturn [(EVar "err")]]
     [];
   SIf [] (EBin Ge (EVar "version") (EInt 1))
     [SAssign [(EField (EVar "t") "PatternType"); (EVar "err")] [(EMethod (EVar "d") "Int8" [])];
      SIf [] (EBin Ne (EVar "err") ENil)
       [SReturn [(EVar "err")]]
       []]
     [];
   SAssign [(EField (EVar "t") "Principal"); (EVar "err")] [(EMethod (EVar "d") "String" [])];
   SIf [] (EBin Ne (EVar "err") ENil)
     [SReturn [(EVar "err")]]
     [];
   SAssign [(EField (EVar "t") "Host"); (EVar "err")] [(EMethod (EVar "d") "String" [])];
   SIf [] (EBin Ne (EVar "err") ENil)
     [SReturn [(EVar "err")]]
     [];
   SAssign [(EField (EVar "t") "Operation"); (EVar "err")] [(EMethod (EVar "d") "Int8" [])];
   SIf [] (EBin Ne (EVar "err") ENil)
     [SReturn [(EVar "err")]]
     [];
   SAssign [(EField (EVar "t") "PermissionType"); (EVar "err")] [(EMethod (EVar "d") "Int8" [])];
   SIf [] (EBin Ne (EVar "err") ENil)
     [SReturn [(EVar "err")]]
     [];
   SReturn [(EVar "err")]].
(** message/messages.gen.go:8436 *)
Definition go_DescribeConfigsRequest_Size : func := mkFunc [("t", GNamed "DescribeConfigsRequest"); ("version", GInt I16)] [GInt I32]
  [SVar "sz" (Some (GInt I32)) None;
   SOp (EVar "sz") Add (EGlobal "sizeof.ArrayLength");
   SFor [SDefine ["i"] [(EBin Sub (ELen (EField (EVar "t") "Resources")) (EInt 1))]] (EBin Ge (EVar "i") (EInt 0)) [SOp (EVar "i") Sub (EInt 1)]
     [SOp (EVar "sz") Add (EMethod (EIndex (EField (EVar "t") "Resources") (EVar "i")) "Size" [(EVar "version")])];
   SIf [] (EBin Ge (EVar "version") (EInt 1))
     [SOp (EVar "sz") Add (EGlobal "sizeof.Bool")]
     [];
   SReturn [(EVar "sz")]].
(** message/messages.gen.go:8449 *)
Definition go_DescribeConfigsRequest_Encode : func := mkFunc [("t", GNamed "DescribeConfigsRequest"); ("e", GPtr (GNamed "Encoder")); ("version", GInt I16)] []
  [SDefine ["len0"] [(ELen (EField (EVar "t") "Resources"))];
   SExpr (EMethod (EVar "e") "PutArrayLength" [(EVar "len0")]);
   SFor [SDefine ["i"] [(EInt 0)]] (EBin Lt (EVar "i") (EVar "len0")) [SOp (EVar "i") Add (EInt 1)]
     [SExpr (EMethod (EIndex (EField (EVar "t") "Resources") (EVar "i")) "Encode" [(EVar "e"); (EVar "version")])];
   SIf [] (EBin Ge (EVar "version") (EInt 1))
     [SExpr (EMethod (EVar "e") "PutBool" [(EField (EVar "t") "IncludeSynoyms")])]
     []].
(** message/messages.gen.go:8462 *)
Definition go_DescribeConfigsRequest_Decode : func := mkFunc [("t", GPtr (GNamed "DescribeConfigsRequest")); ("d", GPtr (GNamed "Decoder")); ("version", GInt I16)] [GNamed "error"]
  [SVar "err" (Some (GNamed "error")) None;
   SIf [SDefine ["n"; "err"] [(EMethod (EVar "d") "ArrayLength" [])]] (EBin Ne (EVar "err") ENil)
     [SReturn [(EVar "err")]]
     [SIf [] (EBin Ge (EVar "n") (EInt 0))
       [SAssign [(EField (EVar "t") "Resources")] [(EMake (GSlice (GNamed "DescribeConfigsResource32")) (EVar "n"))];
        SFor [SDefine ["i"] [(EInt 0)]] (EBin Lt (EVar "i") (EVar "n")) [SOp (EVar "i") Add (EInt 1)]
         [SVar "item" (Some (GNamed "DescribeConfigsResource32")) None;
          SIf [SDefine ["err"] [(EMethod (EAddr (EVar "item")) "Decode" [(EVar "d"); (EVar "version")])]] (EBin Ne (EVar "err") ENil)
           [SReturn [(EVar "err")]]
           [];
          SAssign [(EIndex (EField (EVar "t") "Resources") (EVar "i"))] [(EVar "item")]]]
       []];
   SIf [] (EBin Ge (EVar "version") (EInt 1))
     [SAssign [(EField (EVar "t") "IncludeSynoyms"); (EVar "err")] [(EMethod (EVar "d") "Bool" [])];
      SIf [] (EBin Ne (EVar "err") ENil)
       [SReturn [(EVar "err")]]
       []]
     [];
   SReturn [(EVar "err")]].
(** message/messages.gen.go:8493 *)
Definition go_DescribeConfigsResource32_Size : func := mkFunc [("t", GNamed "DescribeConfigsResource32"); ("version", GInt I16)] [GInt I32]
  [SVar "sz" (Some (GInt I32)) None;
   SOp (EVar "sz") Add (EGlobal "sizeof.Int8");
   SOp (EVar "sz") Add (ECall "sizeof.String" [(EField (EVar "t") "ResourceName")]);
   SOp (EVar "sz") Add (ECall "sizeof.StringArray" [(EField (EVar "t") "ConfigurationKeys")]);
   SReturn [(EVar "sz")]].
(** message/messages.gen.go:8502 *)
Definition go_DescribeConfigsResource32_Encode : func := mkFunc [("t", GNamed "DescribeConfigsResource32"); ("e", GPtr (GNamed "Encoder")); ("version", GInt I16)] []
  [SExpr (EMethod (EVar "e") "PutInt8" [(EField (EVar "t") "ResourceType")]);
   SExpr (EMethod (EVar "e") "PutString" [(EField (EVar "t") "ResourceName")]);
   SExpr (EMethod (EVar "e") "PutStringArray" [(EField (EVar "t") "ConfigurationKeys")])].
(** message/messages.gen.go:8509 *)
Definition go_DescribeConfigsResource32_Decode : func := mkFunc [("t", GPtr (GNamed "DescribeConfigsResource32")); ("d", GPtr (GNamed "Decoder")); ("version", GInt I16)] [GNamed "error"]
  [SVar "err" (Some (GNamed "error")) None;
   SAssign [(EField (EVar "t") "ResourceType"); (EVar "err")] [(EMethod (EVar "d") "Int8" [])];
   SIf [] (EBin Ne (EVar "err") ENil)
     [SReturn [(EVar "err")]]
     [];
   SAssign [(EField (EVar "t") "ResourceName"); (EVar "err")] [(EMethod (EVar "d") "String" [])];
   SIf [] (EBin Ne (EVar "err") ENil)
     [SReturn [(EVar "err")]]
     [];
   SAssign [(EField (EVar "t") "ConfigurationKeys"); (EVar "err")] [(EMethod (EVar "d") "StringArray" [])];
   SIf [] (EBin Ne (EVar "err") ENil)
     [SReturn [(EVar "err")]]
     [];
   SReturn [(EVar "err")]].
(** message/messages.gen.go:8533 *)
Definition go_DescribeConfigsResponse_Size : func := mkFunc [("t", GNamed "DescribeConfigsResponse"); ("version", GInt I16)] [GInt I32]
  [SVar "sz" (Some (GInt I32)) None;
   SOp (EVar "sz") Add (EGlobal "sizeof.Int32");
   SOp (EVar "sz") Add (EGlobal "sizeof.ArrayLength");
   SFor [SDefine ["i"] [(EBin Sub (ELen (EField (EVar "t") "Results")) (EInt 1))]] (EBin Ge (EVar "i") (EInt 0)) [SOp (EVar "i") Sub (EInt 1)]
     [SOp (EVar "sz") Add (EMethod (EIndex (EField (EVar "t") "Results") (EVar "i")) "Size" [(EVar "version")])];
   SReturn [(EVar "sz")]].
(** message/messages.gen.go:8544 *)
Definition go_DescribeConfigsResponse_Encode : func := mkFunc [("t", GNamed "DescribeConfigsResponse"); ("e", GPtr (GNamed "Encoder")); ("version", GInt I16)] []
  [SExpr (EMethod (EVar "e") "PutInt32" [(EField (EVar "t") "ThrottleTimeMs")]);
   SDefine ["len1"] [(ELen (EField (EVar "t") "Results"))];
   SExpr (EMethod (EVar "e") "PutArrayLength" [(EVar "len1")]);
   SFor [SDefine ["i"] [(EInt 0)]] (EBin Lt (EVar "i") (EVar "len1")) [SOp (EVar "i") Add (EInt 1)]
     [SExpr (EMethod (EIndex (EField (EVar "t") "Results") (EVar "i")) "Encode" [(EVar "e"); (EVar "version")])]].
(** message/messages.gen.go:8555 *)
Definition go_DescribeConfigsResponse_Decode : func := mkFunc [("t", GPtr (GNamed "DescribeConfigsResponse")); ("d", GPtr (GNamed "Decoder")); ("version", GInt I16)] [GNamed "error"]
  [SVar "err" (Some (GNamed "error")) None;
   SAssign [(EField (EVar "t") "ThrottleTimeMs"); (EVar "err")] [(EMethod (EVar "d") "Int32" [])];
   SIf [] (EBin Ne (EVar "err") ENil)
     [SReturn [(EVar "err")]]
     [];
   SIf [SDefine ["n"; "err"] [(EMethod (EVar "d") "ArrayLength" [])]] (EBin Ne (EVar "err") ENil)
     [SReturn [(EVar "err")]]
     [SIf [] (EBin Ge (EVar "n") (EInt 0))
       [SAssign [(EField (EVar "t") "Results")] [(EMake (GSlice (GNamed "DescribeConfigsResult32")) (EVar "n"))];
        SFor [SDefine ["i"] [(EInt 0)]] (EBin Lt (EVar "i") (EVar "n")) [SOp (EVar "i") Add (EInt 1)]
         [SVar "item" (Some (GNamed "DescribeConfigsResult32")) None;
          SIf [SDefine ["err"] [(EMethod (EAddr (EVar "item")) "Decode" [(EVar "d"); (EVar "version")])]] (EBin Ne (EVar "err") ENil)
           [SReturn [(EVar "err")]]
           [];
          SAssign [(EIndex (EField (EVar "t") "Results") (EVar "i"))] [(EVar "item")]]]
       []];
   SReturn [(EVar "err")]].
(** message/messages.gen.go:8586 *)
Definition go_DescribeConfigsResult32_Size : func := mkFunc [("t", GNamed "DescribeConfigsResult32"); ("version", GInt I16)] [GInt I32]
  [SVar "sz" (Some (GInt I32)) None;
   SOp (EVar "sz") Add (EGlobal "sizeof.Int16");
   SOp (EVar "sz") Add (ECall "sizeof.String" [(EField (EVar "t") "ErrorMessage")]);
   SOp (EVar "sz") Add (EGlobal "sizeof.Int8");
   SOp (EVar "sz") Add (ECall "sizeof.String" [(EField (EVar "t") "ResourceName")]);
   SOp (EVar "sz") Add (EGlobal "sizeof.ArrayLength");
   SFor [SDefine ["i"] [(EBin Sub (ELen (EField (EVar "t") "Configs")) (EInt 1))]] (EBin Ge (EVar "i") (EInt 0)) [SOp (EVar "i") Sub (EInt 1)]
     [SOp (EVar "sz") Add (EMethod (EIndex (EField (EVar "t") "Configs") (EVar "i")) "Size" [(EVar "version")])];
   SReturn [(EVar "sz")]].
(** message/messages.gen.go:8600 *)
Definition go_DescribeConfigsResult32_Encode : func := mkFunc [("t", GNamed "DescribeConfigsResult32"); ("e", GPtr (GNamed "Encoder")); ("version", GInt I16)] []
  [SExpr (EMethod (EVar "e") "PutInt16" [(EField (EVar "t") "ErrorCode")]);
   SExpr (EMethod (EVar "e") "PutString" [(EField (EVar "t") "ErrorMessage")]);
   SExpr (EMethod (EVar "e") "PutInt8" [(EField (EVar "t") "ResourceType")]);
   SExpr (EMethod (EVar "e") "PutString" [(EField (EVar "t") "ResourceName")]);
   SDefine ["len4"] [(ELen (EField (EVar "t") "Configs"))];
   SExpr (EMethod (EVar "e") "PutArrayLength" [(EVar "len4")]);
   SFor [SDefine ["i"] [(EInt 0)]] (EBin Lt (EVar "i") (EVar "len4")) [SOp (EVar "i") Add (EInt 1)]
     [SExpr (EMethod (EIndex (EField (EVar "t") "Configs") (EVar "i")) "Encode" [(EVar "e"); (EVar "version")])]].
(** message/messages.gen.go:8614 *)
Definition go_DescribeConfigsResult32_Decode : func := mkFunc [("t", GPtr (GNamed "DescribeConfigsResult32")); ("d", GPtr (GNamed "Decoder")); ("version", GInt I16)] [GNamed "error"]
  [SVar "err" (Some (GNamed "error")) None;
   SAssign [(EField (EVar "t") "ErrorCode"); (EVar "err")] [(EMethod (EVar "d") "Int16" [])];
   SIf [] (EBin Ne (EVar "err") ENil)
     [SReturn [(EVar "err")]]
     [];
   SAssign [(EField (EVar "t") "ErrorMessage"); (EVar "err")] [(EMethod (EVar "d") "String" [])];
   SIf [] (EBin Ne (EVar "err") ENil)
     [SReturn [(EVar "err")]]
     [];
   SAssign [(EField (EVar "t") "ResourceType"); (EVar "err")] [(EMethod (EVar "d") "Int8" [])];
   SIf [] (EBin Ne (EVar "err") ENil)
     [SReturn [(EVar "err")]]
     [];
   SAssign [(EField (EVar "t") "ResourceName"); (EVar "err")] [(EMethod (EVar "d") "String" [])];
   SIf [] (EBin Ne (EVar "err") ENil)
     [SReturn [(EVar "err")]]
     [];
   SIf [SDefine ["n"; "err"] [(EMethod (EVar "d") "ArrayLength" [])]] (EBin Ne (EVar "err") ENil)
     [SReturn [(EVar "err")]]
     [SIf [] (EBin Ge (EVar "n") (EInt 0))
       [SAssign [(EField (EVar "t") "Configs")] [(EMake (GSlice (GNamed "DescribeConfigsResourceResult32")) (EVar "n"))];
        SFor [SDefine ["i"] [(EInt 0)]] (EBin Lt (EVar "i") (EVar "n")) [SOp (EVar "i") Add (EInt 1)]
         [SVar "item" (Some (GNamed "DescribeConfigsResourceResult32")) None;
          SIf [SDefine ["err"] [(EMethod (EAddr (EVar "item")) "Decode" [(EVar "d"); (EVar "version")])]] (EBin Ne (EVar "err") ENil)
           [SReturn [(EVar "err")]]
           [];
          SAssign [(EIndex (EField (EVar "t") "Configs") (EVar "i"))] [(EVar "item")]]]
       []];
   SReturn [(EVar "err")]].
(** message/messages.gen.go:8659 *)
Definition go_DescribeConfigsResourceResult32_Size : func := mkFunc [("t", GNamed "DescribeConfigsResourceResult32"); ("version", GInt I16)] [GInt I32]
  [SVar "sz" (Some (GInt I32)) None;
   SOp (EVar "sz") Add (ECall "sizeof.String" [(EField (EVar "t") "Name")]);
   SOp (EVar "sz") Add (ECall "sizeof.String" [(EField (EVar "t") "Value")]);
   SOp (EVar "sz") Add (EGlobal "sizeof.Bool");
   SIf [] (EBin And (EBin Ge (EVar "version") (EInt 0)) (EBin Le (EVar "version") (EInt 0)))
     [SOp (EVar "sz") Add (EGlobal "sizeof.Bool")]
     [];
   SIf [] (EBin Ge (EVar "version") (EInt 1))
     [SOp (EVar "sz") Add (EGlobal "sizeof.Int8")]
     [];
   SOp (EVar "sz") Add (EGlobal "sizeof.Bool");
   SIf [] (EBin Ge (EVar "version") (EInt 1))
     [SOp (EVar "sz") Add (EGlobal "sizeof.ArrayLength");
      SFor [SDefine ["i"] [(EBin Sub (ELen (EField (EVar "t") "Synonyms")) (EInt 1))]] (EBin Ge (EVar "i") (EInt 0)) [SOp (EVar "i") Sub (EInt 1)]
       [SOp (EVar "sz") Add (EMethod (EIndex (EField (EVar "t") "Synonyms") (EVar "i")) "Size" [(EVar "version")])]]
     [];
   SReturn [(EVar "sz")]].
(** message/messages.gen.go:8681 *)
Definition go_DescribeConfigsResourceResult32_Encode : func := mkFunc [("t", GNamed "DescribeConfigsResourceResult32"); ("e", GPtr (GNamed "Encoder")); ("version", GInt I16)] []
  [SExpr (EMethod (EVar "e") "PutString" [(EField (EVar "t") "Name")]);
   SExpr (EMethod (EVar "e") "PutString" [(EField (EVar "t") "Value")]);
   SExpr (EMethod (EVar "e") "PutBool" [(EField (EVar "t") "ReadOnly")]);
   SIf [] (EBin And (EBin Ge (EVar "version") (EInt 0)) (EBin Le (EVar "version") (EInt 0)))
     [SExpr (EMethod (EVar "e") "PutBool" [(EField (EVar "t") "IsDefault")])]
     [];
   SIf [] (EBin Ge (EVar "version") (EInt 1))
     [SExpr (EMethod (EVar "e") "PutInt8" [(EField (EVar "t") "ConfigSource")])]
     [];
   SExpr (EMethod (EVar "e") "PutBool" [(EField (EVar "t") "IsSensitive")]);
   SIf [] (EBin Ge (EVar "version") (EInt 1))
     [SDefine ["len6"] [(ELen (EField (EVar "t") "Synonyms"))];
      SExpr (EMethod (EVar "e") "PutArrayLength" [(EVar "len6")]);
      SFor [SDefine ["i"] [(EInt 0)]] (EBin Lt (EVar "i") (EVar "len6")) [SOp (EVar "i") Add (EInt 1)]
       [SExpr (EMethod (EIndex (EField (EVar "t") "Synonyms") (EVar "i")) "Encode" [(EVar "e"); (EVar "version")])]]
     []].
(** message/messages.gen.go:8703 *)
Definition go_DescribeConfigsResourceResult32_Decode : func := mkFunc [("t", GPtr (GNamed "DescribeConfigsResourceResult32")); ("d", GPtr (GNamed "Decoder")); ("version", GInt I16)] [GNamed "error"]
  [SVar "err" (Some (GNamed "error")) None;
   SAssign [(EField (EVar "t") "Name"); (EVar "err")] [(EMethod (EVar "d") "String" [])];
   SIf [] (EBin Ne (EVar "err") ENil)
     [SReturn [(EVar "err")]]
     [];
   SAssign [(EField (EVar "t") "Value"); (EVar "err")] [(EMethod (EVar "d") "String" [])];
   SIf [] (EBin Ne (EVar "err") ENil)
     [SReturn [(EVar "err")]]
     [];
   SAssign [(EField (EVar "t") "ReadOnly"); (EVar "err")] [(EMethod (EVar "d") "Bool" [])];
   SIf [] (EBin Ne (EVar "err") ENil)
     [SReturn [(EVar "err")]]
     [];
   SIf [] (EBin And (EBin Ge (EVar "version") (EInt 0)) (EBin Le (EVar "version") (EInt 0)))
     [SAssign [(EField (EVar "t") "IsDefault"); (EVar "err")] [(EMethod (EVar "d") "Bool" [])];
      SIf [] (EBin Ne (EVar "err") ENil)
       [SReturn [(EVar "err")]]
       []]
     [];
   SIf [] (EBin Ge (EVar "version") (EInt 1))
     [SAssign [(EField (EVar "t") "ConfigSource"); (EVar "err")] [(EMethod (EVar "d") "Int8" [])];
      SIf [] (EBin Ne (EVar "err") ENil)
       [SReturn [(EVar "err")]]
       []]
     [];
   SAssign [(EField (EVar "t") "IsSensitive"); (EVar "err")] [(EMethod (EVar "d") "Bool" [])];
   SIf [] (EBin Ne (EVar "err") ENil)
     [SReturn [(EVar "err")]]
     [];
   SIf [] (EBin Ge (EVar "version") (EInt 1))
     [SIf [SDefine ["n"; "err"] [(EMethod (EVar "d") "ArrayLength" [])]] (EBin Ne (EVar "err") ENil)
       [SReturn [(EVar "err")]]
       [SIf [] (EBin Ge (EVar "n") (EInt 0))
         [SAssign [(EField (EVar "t") "Synonyms")] [(EMake (GSlice (GNamed "DescribeConfigsSynonym32")) (EVar "n"))];
          SFor [SDefine ["i"] [(EInt 0)]] (EBin Lt (EVar "i") (EVar "n")) [SOp (EVar "i") Add (EInt 1)]
           [SVar "item" (Some (GNamed "DescribeConfigsSynonym32")) None;
            SIf [SDefine ["err"] [(EMethod (EAddr (EVar "item")) "Decode" [(EVar "d"); (EVar "version")])]] (EBin Ne (EVar "err") ENil)
             [SReturn [(EVar "err")]]
             [];
            SAssign [(EIndex (EField (EVar "t") "Synonyms") (EVar "i"))] [(EVar "item")]]]
         []]]
     [];
   SReturn [(EVar "err")]].
(** message/messages.gen.go:8758 *)
Definition go_DescribeConfigsSynonym32_Size : func := mkFunc [("t", GNamed "DescribeConfigsSynonym32"); ("version", GInt I16)] [GInt I32]
  [SVar "sz" (Some (GInt I32)) None;
   SIf [] (EBin Ge (EVar "version") (EInt 1))
     [SOp (EVar "sz") Add (ECall "sizeof.String" [(EField (EVar "t") "Name")])]
     [];
   SIf [] (EBin Ge (EVar "version") (EInt 1))
     [SOp (EVar "sz") Add (ECall "sizeof.String" [(EField (EVar "t") "Value")])]
     [];
   SIf [] (EBin Ge (EVar "version") (EInt 1))
     [SOp (EVar "sz") Add (EGlobal "sizeof.Int8")]
     [];
   SReturn [(EVar "sz")]].
(** message/messages.gen.go:8773 *)
Definition go_DescribeConfigsSynonym32_Encode : func := mkFunc [("t", GNamed "DescribeConfigsSynonym32"); ("e", GPtr (GNamed "Encoder")); ("version", GInt I16)] []
  [SIf [] (EBin Ge (EVar "version") (EInt 1))
     [SExpr (EMethod (EVar "e") "PutString" [(EField (EVar "t") "Name")])]
     [];
   SIf [] (EBin Ge (EVar "version") (EInt 1))
     [SExpr (EMethod (EVar "e") "PutString" [(EField (EVar "t") "Value")])]
     [];
   SIf [] (EBin Ge (EVar "version") (EInt 1))
     [SExpr (EMethod (EVar "e") "PutInt8" [(EField (EVar "t") "Source")])]
     []].
(** message/messages.gen.go:8786 *)
Definition go_DescribeConfigsSynonym32_Decode : func := mkFunc [("t", GPtr (GNamed "DescribeConfigsSynonym32")); ("d", GPtr (GNamed "Decoder")); ("version", GInt I16)] [GNamed "error"]
  [SVar "err" (Some (GNamed "error")) None;
   SIf [] (EBin Ge (EVar "version") (EInt 1))
     [SAssign [(EField (EVar "t") "Name"); (EVar "err")] [(EMethod (EVar "d") "String" [])];
      SIf [] (EBin Ne (EVar "err") ENil)
       [SReturn [(EVar "err")]]
       []]
     [];
   SIf [] (EBin Ge (EVar "version") (EInt 1))
     [SAssign [(EField (EVar "t") "Value"); (EVar "err")] [(EMethod (EVar "d") "String" [])];
      SIf [] (EBin Ne (EVar "err") ENil)
       [SReturn [(EVar "err")]]
       []]
     [];
   SIf [] (EBin Ge (EVar "version") (EInt 1))
     [SAssign [(EField (EVar "t") "Source"); (EVar "err")] [(EMethod (EVar "d") "Int8" [])];
      SIf [] (EBin Ne (EVar "err") ENil)
       [SReturn [(EVar "err")]]
       []]
     [];
   SReturn [(EVar "err")]].
(** message/messages.gen.go:8816 *)
Definition go_AlterConfigsRequest_Size : func := mkFunc [("t", GNamed "AlterConfigsRequest"); ("version", GInt I16)] [GInt I32]
  [SVar "sz" (Some (GInt I32)) None;
   SOp (EVar "sz") Add (EGlobal "sizeof.ArrayLength");
   SFor [SDefine ["i"] [(EBin Sub (ELen (EField (EVar "t") "Resources")) (EInt 1))]] (EBin Ge (EVar "i") (EInt 0)) [SOp (EVar "i") Sub (EInt 1)]
     [SOp (EVar "sz") Add (EMethod (EIndex (EField (EVar "t") "Resources") (EVar "i")) "Size" [(EVar "version")])];
   SOp (EVar "sz") Add (EGlobal "sizeof.Bool");
   SReturn [(EVar "sz")]].
(** message/messages.gen.go:8827 *)
Definition go_AlterConfigsRequest_Encode : func := mkFunc [("t", GNamed "AlterConfigsRequest"); ("e", GPtr (GNamed "Encoder")); ("version", GInt I16)] []
  [SDefine ["len0"] [(ELen (EField (EVar "t") "Resources"))];
   SExpr (EMethod (EVar "e") "PutArrayLength" [(EVar "len0")]);
   SFor [SDefine ["i"] [(EInt 0)]] (EBin Lt (EVar "i") (EVar "len0")) [SOp (EVar "i") Add (EInt 1)]
     [SExpr (EMethod (EIndex (EField (EVar "t") "Resources") (EVar "i")) "Encode" [(EVar "e"); (EVar "version")])];
   SExpr (EMethod (EVar "e") "PutBool" [(EField (EVar "t") "ValidateOnly")])].
(** message/messages.gen.go:8838 *)
Definition go_AlterConfigsRequest_Decode : func := mkFunc [("t", GPtr (GNamed "AlterConfigsRequest")); ("d", GPtr (GNamed "Decoder")); ("version", GInt I16)] [GNamed "error"]
  [SVar "err" (Some (GNamed "error")) None;
   SIf [SDefine ["n"; "err"] [(EMethod (EVar "d") "ArrayLength" [])]] (EBin Ne (EVar "err") ENil)
     [SReturn [(EVar "err")]]
     [SIf [] (EBin Ge (EVar "n") (EInt 0))
       [SAssign [(EField (EVar "t") "Resources")] [(EMake (GSlice (GNamed "AlterConfigsResource33")) (EVar "n"))];
        SFor [SDefine ["i"] [(EInt 0)]] (EBin Lt (EVar "i") (EVar "n")) [SOp (EVar "i") Add (EInt 1)]
         [SVar "item" (Some (GNamed "AlterConfigsResource33")) None;
          SIf [SDefine ["err"] [(EMethod (EAddr (EVar "item")) "Decode" [(EVar "d"); (EVar "version")])]] (EBin Ne (EVar "err") ENil)
           [SReturn [(EVar "err")]]
           [];
          SAssign [(EIndex (EField (EVar "t") "Resources") (EVar "i"))] [(EVar "item")]]]
       []];
   SAssign [(EField (EVar "t") "ValidateOnly"); (EVar "err")] [(EMethod (EVar "d") "Bool" [])];
   SIf [] (EBin Ne (EVar "err") ENil)
     [SReturn [(EVar "err")]]
     [];
   SReturn [(EVar "err")]].
(** message/messages.gen.go:8867 *)
Definition go_AlterConfigsResource33_Size : func := mkFunc [("t", GNamed "AlterConfigsResource33"); ("version", GInt I16)] [GInt I32]
  [SVar "sz" (Some (GInt I32)) None;
   SOp (EVar "sz") Add (EGlobal "sizeof.Int8");
   SOp (EVar "sz") Add (ECall "sizeof.String" [(EField (EVar "t") "ResourceName")]);
   SOp (EVar "sz") Add (EGlobal "sizeof.ArrayLength");
   SFor [SDefine ["i"] [(EBin Sub (ELen (EField (EVar "t") "Configs")) (EInt 1))]] (EBin Ge (EVar "i") (EInt 0)) [SOp (EVar "i") Sub (EInt 1)]
     [SOp (EVar "sz") Add (EMethod (EIndex (EField (EVar "t") "Configs") (EVar "i")) "Size" [(EVar "version")])];
   SReturn [(EVar "sz")]].
(** message/messages.gen.go:8879 *)
Definition go_AlterConfigsResource33_Encode : func := mkFunc [("t", GNamed "AlterConfigsResource33"); ("e", GPtr (GNamed "Encoder")); ("version", GInt I16)] []
  [SExpr (EMethod (EVar "e") "PutInt8" [(EField (EVar "t") "ResourceType")]);
   SExpr (EMethod (EVar "e") "PutString" [(EField (EVar "t") "ResourceName")]);
   SDefine ["len2"] [(ELen (EField (EVar "t") "Configs"))];
   SExpr (EMethod (EVar "e") "PutArrayLength" [(EVar "len2")]);
   SFor [SDefine ["i"] [(EInt 0)]] (EBin Lt (EVar "i") (EVar "len2")) [SOp (EVar "i") Add (EInt 1)]
     [SExpr (EMethod (EIndex (EField (EVar "t") "Configs") (EVar "i")) "Encode" [(EVar "e"); (EVar "version")])]].
(** message/messages.gen.go:8891 *)
Definition go_AlterConfigsResource33_Decode : func := mkFunc [("t", GPtr (GNamed "AlterConfigsResource33")); ("d", GPtr (GNamed "Decoder")); ("version", GInt I16)] [GNamed "error"]
  [SVar "err" (Some (GNamed "error")) None;
   SAssign [(EField (EVar "t") "ResourceType"); (EVar "err")] [(EMethod (EVar "d") "Int8" [])];
   SIf [] (EBin Ne (EVar "err") ENil)
     [SReturn [(EVar "err")]]
     [];
   SAssign [(EField (EVar "t") "ResourceName"); (EVar "err")] [(EMethod (EVar "d") "String" [])];
   SIf [] (EBin Ne (EVar "err") ENil)
     [SReturn [(EVar "err")]]
     [];
   SIf [SDefine ["n"; "err"] [(EMethod (EVar "d") "ArrayLength" [])]] (EBin Ne (EVar "err") ENil)
     [SReturn [(EVar "err")]]
     [SIf [] (EBin Ge (EVar "n") (EInt 0))
       [SAssign [(EField (EVar "t") "Configs")] [(EMake (GSlice (GNamed "AlterableConfig33")) (EVar "n"))];
        SFor [SDefine ["i"] [(EInt 0)]] (EBin Lt (EVar "i") (EVar "n")) [SOp (EVar "i") Add (EInt 1)]
         [SVar "item" (Some (GNamed "AlterableConfig33")) None;
          SIf [SDefine ["err"] [(EMethod (EAddr (EVar "item")) "Decode" [(EVar "d"); (EVar "version")])]] (EBin Ne (EVar "err") ENil)
           [SReturn [(EVar "err")]]
           [];
          SAssign [(EIndex (EField (EVar "t") "Configs") (EVar "i"))] [(EVar "item")]]]
       []];
   SReturn [(EVar "err")]].
(** message/messages.gen.go:8923 *)
Definition go_AlterableConfig33_Size : func := mkFunc [("t", GNamed "AlterableConfig33"); ("version", GInt I16)] [GInt I32]
  [SVar "sz" (Some (GInt I32)) None;
   SOp (EVar "sz") Add (ECall "sizeof.String" [(EField (EVar "t") "Name")]);
   SOp (EVar "sz") Add (ECall "sizeof.String" [(EField (EVar "t") "Value")]);
   SReturn [(EVar "sz")]].
(** message/messages.gen.go:8931 *)
Definition go_AlterableConfig33_Encode : func := mkFunc [("t", GNamed "AlterableConfig33"); ("e", GPtr (GNamed "Encoder")); ("version", GInt I16)] []
  [SExpr (EMethod (EVar "e") "PutString" [(EField (EVar "t") "Name")]);
   SExpr (EMethod (EVar "e") "PutString" [(EField (EVar "t") "Value")])].
(** message/messages.gen.go:8937 *)
Definition go_AlterableConfig33_Decode : func := mkFunc [("t", GPtr (GNamed "AlterableConfig33")); ("d", GPtr (GNamed "Decoder")); ("version", GInt I16)] [GNamed "error"]
  [SVar "err" (Some (GNamed "error")) None;
   SAssign [(EField (EVar "t") "Name"); (EVar "err")] [(EMethod (EVar "d") "String" [])];
   SIf [] (EBin Ne (EVar "err") ENil)
     [SReturn [(EVar "err")]]
     [];
   SAssign [(EField (EVar "t") "Value"); (EVar "err")] [(EMethod (EVar "d") "String" [])];
   SIf [] (EBin Ne (EVar "err") ENil)
     [SReturn [(EVar "err")]]
     [];
   SReturn [(EVar "err")]].
(** message/messages.gen.go:8957 *)
Definition go_AlterConfigsResponse_Size : func := mkFunc [("t", GNamed "AlterConfigsResponse"); ("version", GInt I16)] [GInt I32]
  [SVar "sz" (Some (GInt I32)) None;
   SOp (EVar "sz") Add (EGlobal "sizeof.Int32");
   SOp (EVar "sz") Add (EGlobal "sizeof.ArrayLength");
   SFor [SDefine ["i"] [(EBin Sub (ELen (EField (EVar "t") "Responses")) (EInt 1))]] (EBin Ge (EVar "i") (EInt 0)) [SOp (EVar "i") Sub (EInt 1)]
     [SOp (EVar "sz") Add (EMethod (EIndex (EField (EVar "t") "Responses") (EVar "i")) "Size" [(EVar "version")])];
   SReturn [(EVar "sz")]].
(** message/messages.gen.go:8968 *)
Definition go_AlterConfigsResponse_Encode : func := mkFunc [("t", GNamed "AlterConfigsResponse"); ("e", GPtr (GNamed "Encoder")); ("version", GInt I16)] []
  [SExpr (EMethod (EVar "e") "PutInt32" [(EField (EVar "t") "ThrottleTimeMs")]);
   SDefine ["len1"] [(ELen (EField (EVar "t") "Responses"))];
   SExpr (EMethod (EVar "e") "PutArrayLength" [(EVar "len1")]);
   SFor [SDefine ["i"] [(EInt 0)]] (EBin Lt (EVar "i") (EVar "len1")) [SOp (EVar "i") Add (EInt 1)]
     [SExpr (EMethod (EIndex (EField (EVar "t") "Responses") (EVar "i")) "Encode" [(EVar "e"); (EVar "version")])]].
(** message/messages.gen.go:8979 *)
Definition go_AlterConfigsResponse_Decode : func := mkFunc [("t", GPtr (GNamed "AlterConfigsResponse")); ("d", GPtr (GNamed "Decoder")); ("version", GInt I16)] [GNamed "error"]
  [SVar "err" (Some (GNamed "error")) None;
   SAssign [(EField (EVar "t") "ThrottleTimeMs"); (EVar "err")] [(EMethod (EVar "d") "Int32" [])];
   SIf [] (EBin Ne (EVar "err") ENil)
     [SReturn [(EVar "err")]]
     [];
   SIf [SDefine ["n"; "err"] [(EMethod (EVar "d") "ArrayLength" [])]] (EBin Ne (EVar "err") ENil)
     [SReturn [(EVar "err")]]
     [SIf [] (EBin Ge (EVar "n") (EInt 0))
       [SAssign [(EField (EVar "t") "Responses")] [(EMake (GSlice (GNamed "AlterConfigsResourceResponse33")) (EVar "n"))];
        SFor [SDefine ["i"] [(EInt 0)]] (EBin Lt (EVar "i") (EVar "n")) [SOp (EVar "i") Add (EInt 1)]
         [SVar "item" (Some (GNamed "AlterConfigsResourceResponse33")) None;
          SIf [SDefine ["err"] [(EMethod (EAddr (EVar "item")) "Decode" [(EVar "d"); (EVar "version")])]] (EBin Ne (EVar "err") ENil)
           [SReturn [(EVar "err")]]
           [];
          SAssign [(EIndex (EField (EVar "t") "Responses") (EVar "i"))] [(EVar "item")]]]
       []];
   SReturn [(EVar "err")]].
(** message/messages.gen.go:9009 *)
Definition go_AlterConfigsResourceResponse33_Size : func := mkFunc [("t", GNamed "AlterConfigsResourceResponse33"); ("version", GInt I16)] [GInt I32]
  [SVar "sz" (Some (GInt I32)) None;
   SOp (EVar "sz") Add (EGlobal "sizeof.Int16");
   SOp (EVar "sz") Add (ECall "sizeof.String" [(EField (EVar "t") "ErrorMessage")]);
   SOp (EVar "sz") Add (EGlobal "sizeof.Int8");
   SOp (EVar "sz") Add (ECall "sizeof.String" [(EField (EVar "t") "ResourceName")]);
   SReturn [(EVar "sz")]].
(** message/messages.gen.go:9019 *)
Definition go_AlterConfigsResourceResponse33_Encode : func := mkFunc [("t", GNamed "AlterConfigsResourceResponse33"); ("e", GPtr (GNamed "Encoder")); ("version", GInt I16)] []
  [SExpr (EMethod (EVar "e") "PutInt16" [(EField (EVar "t") "ErrorCode")]);
   SExpr (EMethod (EVar "e") "PutString" [(EField (EVar "t") "ErrorMessage")]);
   SExpr (EMethod (EVar "e") "PutInt8" [(EField (EVar "t") "ResourceType")]);
   SExpr (EMethod (EVar "e") "PutString" [(EField (EVar "t") "ResourceName")])].
(** message/messages.gen.go:9027 *)
Definition go_AlterConfigsResourceResponse33_Decode : func := mkFunc [("t", GPtr (GNamed "AlterConfigsResourceResponse33")); ("d", GPtr (GNamed "Decoder")); ("version", GInt I16)] [GNamed "error"]
  [SVar "err" (Some (GNamed "error")) None;
   SAssign [(EField (EVar "t") "ErrorCode"); (EVar "err")] [(EMethod (EVar "d") "Int16" [])];
   SIf [] (EBin Ne (EVar "err") ENil)
     [SReturn [(EVar "err")]]
     [];
   SAssign [(EField (EVar "t") "ErrorMessage"); (EVar "err")] [(EMethod (EVar "d") "String" [])];
   SIf [] (EBin Ne (EVar "err") ENil)
     [SReturn [(EVar "err")]]
     [];
   SAssign [(EField (EVar "t") "ResourceType"); (EVar "err")] [(EMethod (EVar "d") "Int8" [])];
   SIf [] (EBin Ne (EVar "err") ENil)
     [SReturn [(EVar "err")]]
     [];
   SAssign [(EField (EVar "t") "ResourceName"); (EVar "err")] [(EMethod (EVar "d") "String" [])];
   SIf [] (EBin Ne (EVar "err") ENil)
     [SReturn [(EVar "err")]]
     [];
   SReturn [(EVar "err")]].
(** message/messages.gen.go:9054 *)
Definition go_AlterReplicaLogDirsRequest_Size : func := mkFunc [("t", GNamed "AlterReplicaLogDirsRequest"); ("version", GInt I16)] [GInt I32]
  [SVar "sz" (Some (GInt I32)) None;
   SOp (EVar "sz") Add (EGlobal "sizeof.ArrayLength");
   SFor [SDefine ["i"] [(EBin Sub (ELen (EField (EVar "t") "Dirs")) (EInt 1))]] (EBin Ge (EVar "i") (EInt 0)) [SOp (EVar "i") Sub (EInt 1)]
     [SOp (EVar "sz") Add (EMethod (EIndex (EField (EVar "t") "Dirs") (EVar "i")) "Size" [(EVar "version")])];
   SReturn [(EVar "sz")]].
(** message/messages.gen.go:9064 *)
Definition go_AlterReplicaLogDirsRequest_Encode : func := mkFunc [("t", GNamed "AlterReplicaLogDirsRequest"); ("e", GPtr (GNamed "Encoder")); ("version", GInt I16)] []
  [SDefine ["len0"] [(ELen (EField (EVar "t") "Dirs"))];
   SExpr (EMethod (EVar "e") "PutArrayLength" [(EVar "len0")]);
   SFor [SDefine ["i"] [(EInt 0)]] (EBin Lt (EVar "i") (EVar "len0")) [SOp (EVar "i") Add (EInt 1)]
     [SExpr (EMethod (EIndex (EField (EVar "t") "Dirs") (EVar "i")) "Encode" [(EVar "e"); (EVar "version")])]].
(** message/messages.gen.go:9074 *)
Definition go_AlterReplicaLogDirsRequest_Decode : func := mkFunc [("t", GPtr (GNamed "AlterReplicaLogDirsRequest")); ("d", GPtr (GNamed "Decoder")); ("version", GInt I16)] [GNamed "error"]
  [SVar "err" (Some (GNamed "error")) None;
   SIf [SDefine ["n"; "err"] [(EMethod (EVar "d") "ArrayLength" [])]] (EBin Ne (EVar "err") ENil)
     [SReturn [(EVar "err")]]
     [SIf [] (EBin Ge (EVar "n") (EInt 0))
       [SAssign [(EField (EVar "t") "Dirs")] [(EMake (GSlice (GNamed "AlterReplicaLogDir34")) (EVar "n"))];
        SFor [SDefine ["i"] [(EInt 0)]] (EBin Lt (EVar "i") (EVar "n")) [SOp (EVar "i") Add (EInt 1)]
         [SVar "item" (Some (GNamed "AlterReplicaLogDir34")) None;
          SIf [SDefine ["err"] [(EMethod (EAddr (EVar "item")) "Decode" [(EVar "d"); (EVar "version")])]] (EBin Ne (EVar "err") ENil)
           [SReturn [(EVar "err")]]
           [];
          SAssign [(EIndex (EField (EVar "t") "Dirs") (EVar "i"))] [(EVar "item")]]]
       []];
   SReturn [(EVar "err")]].
(** message/messages.gen.go:9098 *)
Definition go_AlterReplicaLogDir34_Size : func := mkFunc [("t", GNamed "AlterReplicaLogDir34"); ("version", GInt I16)] [GInt I32]
  [SVar "sz" (Some (GInt I32)) None;
   SOp (EVar "sz") Add (ECall "sizeof.String" [(EField (EVar "t") "Path")]);
   SOp (EVar "sz") Add (EGlobal "sizeof.ArrayLength");
   SFor [SDefine ["i"] [(EBin Sub (ELen (EField (EVar "t") "Topics")) (EInt 1))]] (EBin Ge (EVar "i") (EInt 0)) [SOp (EVar "i") Sub (EInt 1)]
     [SOp (EVar "sz") Add (EMethod (EIndex (EField (EVar "t") "Topics") (EVar "i")) "Size" [(EVar "version")])];
   SReturn [(EVar "sz")]].
(** message/messages.gen.go:9109 *)
Definition go_AlterReplicaLogDir34_Encode : func := mkFunc [("t", GNamed "AlterReplicaLogDir34"); ("e", GPtr (GNamed "Encoder")); ("version", GInt I16)] []
  [SExpr (EMethod (EVar "e") "PutString" [(EField (EVar "t") "Path")]);
   SDefine ["len1"] [(ELen (EField (EVar "t") "Topics"))];
   SExpr (EMethod (EVar "e") "PutArrayLength" [(EVar "len1")]);
   SFor [SDefine ["i"] [(EInt 0)]] (EBin Lt (EVar "i") (EVar "len1")) [SOp (EVar "i") Add (EInt 1)]
     [SExpr (EMethod (EIndex (EField (EVar "t") "Topics") (EVar "i")) "Encode" [(EVar "e"); (EVar "version")])]].
(** message/messages.gen.go:9120 *)
Definition go_AlterReplicaLogDir34_Decode : func := mkFunc [("t", GPtr (GNamed "AlterReplicaLogDir34")); ("d", GPtr (GNamed "Decoder")); ("version", GInt I16)] [GNamed "error"]
  [SVar "err" (Some (GNamed "error")) None;
   SAssign [(EField (EVar "t") "Path"); (EVar "err")] [(EMethod (EVar "d") "String" [])];
   SIf [] (EBin Ne (EVar "err") ENil)
     [SReturn [(EVar "err")]]
     [];
   SIf [SDefine ["n"; "err"] [(EMethod (EVar "d") "ArrayLength" [])]] (EBin Ne (EVar "err") ENil)
     [SReturn [(EVar "err")]]
     [SIf [] (EBin Ge (EVar "n") (EInt 0))
       [SAssign [(EField (EVar "t") "Topics")] [(EMake (GSlice (GNamed "AlterReplicaLogDirTopic34")) (EVar "n"))];
        SFor [SDefine ["i"] [(EInt 0)]] (EBin Lt (EVar "i") (EVar "n")) [SOp (EVar "i") Add (EInt 1)]
         [SVar "item" (Some (GNamed "AlterReplicaLogDirTopic34")) None;
          SIf [SDefine ["err"] [(EMethod (EAddr (EVar "item")) "Decode" [(EVar "d"); (EVar "version")])]] (EBin Ne (EVar "err") ENil)
           [SReturn [(EVar "err")]]
           [];
          SAssign [(EIndex (EField (EVar "t") "Topics") (EVar "i"))] [(EVar "item")]]]
       []];
   SReturn [(EVar "err")]].
(** message/messages.gen.go:9148 *)
Definition go_AlterReplicaLogDirTopic34_Size : func := mkFunc [("t", GNamed "AlterReplicaLogDirTopic34"); ("version", GInt I16)] [GInt I32]
  [SVar "sz" (Some (GInt I32)) None;
   SOp (EVar "sz") Add (ECall "sizeof.String" [(EField (EVar "t") "Name")]);
   SOp (EVar "sz") Add (ECall "sizeof.Int32Array" [(EField (EVar "t") "Partitions")]);
   SReturn [(EVar "sz")]].
(** message/messages.gen.go:9156 *)
Definition go_AlterReplicaLogDirTopic34_Encode : func := mkFunc [("t", GNamed "AlterReplicaLogDirTopic34"); ("e", GPtr (GNamed "Encoder")); ("version", GInt I16)] []
  [SExpr (EMethod (EVar "e") "PutString" [(EField (EVar "t") "Name")]);
   SExpr (EMethod (EVar "e") "PutInt32Array" [(EField (EVar "t") "Partitions")])].
(** message/messages.gen.go:9162 *)
Definition go_AlterReplicaLogDirTopic34_Decode : func := mkFunc [("t", GPtr (GNamed "AlterReplicaLogDirTopic34")); ("d", GPtr (GNamed "Decoder")); ("version", GInt I16)] [GNamed "error"]
  [SVar "err" (Some (GNamed "error")) None;
   SAssign [(EField (EVar "t") "Name"); (EVar "err")] [(EMethod (EVar "d") "String" [])];
   SIf [] (EBin Ne (EVar "err") ENil)
     [SReturn [(EVar "err")]]
     [];
   SAssign [(EField (EVar "t") "Partitions"); (EVar "err")] [(EMethod (EVar "d") "Int32Array" [])];
   SIf [] (EBin Ne (EVar "err") ENil)
     [SReturn [(EVar "err")]]
     [];
   SReturn [(EVar "err")]].
(** message/messages.gen.go:9182 *)
Definition go_AlterReplicaLogDirsResponse_Size : func := mkFunc [("t", GNamed "AlterReplicaLogDirsResponse"); ("version", GInt I16)] [GInt I32]
  [SVar "sz" (Some (GInt I32)) None;
   SOp (EVar "sz") Add (EGlobal "sizeof.Int32");
   SOp (EVar "sz") Add (EGlobal "sizeof.ArrayLength");
   SFor [SDefine ["i"] [(EBin Sub (ELen (EField (EVar "t") "Results")) (EInt 1))]] (EBin Ge (EVar "i") (EInt 0)) [SOp (EVar "i") Sub (EInt 1)]
     [SOp (EVar "sz") Add (EMethod (EIndex (EField (EVar "t") "Results") (EVar "i")) "Size" [(EVar "version")])];
   SReturn [(EVar "sz")]].
(** message/messages.gen.go:9193 *)
Definition go_AlterReplicaLogDirsResponse_Encode : func := mkFunc [("t", GNamed "AlterReplicaLogDirsResponse"); ("e", GPtr (GNamed "Encoder")); ("version", GInt I16)] []
  [SExpr (EMethod (EVar "e") "PutInt32" [(EField (EVar "t") "ThrottleTimeMs")]);
   SDefine ["len1"] [(ELen (EField (EVar "t") "Results"))];
   SExpr (EMethod (EVar "e") "PutArrayLength" [(EVar "len1")]);
   SFor [SDefine ["i"] [(EInt 0)]] (EBin Lt (EVar "i") (EVar "len1")) [SOp (EVar "i") Add (EInt 1)]
     [SExpr (EMethod (EIndex (EField (EVar "t") "Results") (EVar "i")) "Encode" [(EVar "e"); (EVar "version")])]].
(** message/messages.gen.go:9204 *)
Definition go_AlterReplicaLogDirsResponse_Decode : func := mkFunc [("t", GPtr (GNamed "AlterReplicaLogDirsResponse")); ("d", GPtr (GNamed "Decoder")); ("version", GInt I16)] [GNamed "error"]
  [SVar "err" (Some (GNamed "error")) None;
   SAssign [(EField (EVar "t") "ThrottleTimeMs"); (EVar "err")] [(EMethod (EVar "d") "Int32" [])];
   SIf [] (EBin Ne (EVar "err") ENil)
     [SReturn [(EVar "err")]]
     [];
   SIf [SDefine ["n"; "err"] [(EMethod (EVar "d") "ArrayLength" [])]] (EBin Ne (EVar "err") ENil)
     [SReturn [(EVar "err")]]
     [SIf [] (EBin Ge (EVar "n") (EInt 0))
       [SAssign [(EField (EVar "t") "Results")] [(EMake (GSlice (GNamed "AlterReplicaLogDirTopicResult34")) (EVar "n"))];
        SFor [SDefine ["i"] [(EInt 0)]] (EBin Lt (EVar "i") (EVar "n")) [SOp (EVar "i") Add (EInt 1)]
         [SVar "item" (Some (GNamed "AlterReplicaLogDirTopicResult34")) None;
          SIf [SDefine ["err"] [(EMethod (EAddr (EVar "item")) "Decode" [(EVar "d"); (EVar "version")])]] (EBin Ne (EVar "err") ENil)
           [SReturn [(EVar "err")]]
           [];
          SAssign [(EIndex (EField (EVar "t") "Results") (EVar "i"))] [(EVar "item")]]]
       []];
   SReturn [(EVar "err")]].
(** message/messages.gen.go:9232 *)
Definition go_AlterReplicaLogDirTopicResult34_Size : func := mkFunc [("t", GNamed "AlterReplicaLogDirTopicResult34"); ("version", GInt I16)] [GInt I32]
  [SVar "sz" (Some (GInt I32)) None;
   SOp (EVar "sz") Add (ECall "sizeof.String" [(EField (EVar "t") "TopicName")]);
   SOp (EVar "sz") Add (EGlobal "sizeof.ArrayLength");
   SFor [SDefine ["i"] [(EBin Sub (ELen (EField (EVar "t") "Partitions")) (EInt 1))]] (EBin Ge (EVar "i") (EInt 0)) [SOp (EVar "i") Sub (EInt 1)]
     [SOp (EVar "sz") Add (EMethod (EIndex (EField (EVar "t") "Partitions") (EVar "i")) "Size" [(EVar "version")])];
   SReturn [(EVar "sz")]].
(** message/messages.gen.go:9243 *)
Definition go_AlterReplicaLogDirTopicResult34_Encode : func := mkFunc [("t", GNamed "AlterReplicaLogDirTopicResult34"); ("e", GPtr (GNamed "Encoder")); ("version", GInt I16)] []
  [SExpr (EMethod (EVar "e") "PutString" [(EField (EVar "t") "TopicName")]);
   SDefine ["len1"] [(ELen (EField (EVar "t") "Partitions"))];
   SExpr (EMethod (EVar "e") "PutArrayLength" [(EVar "len1")]);
   SFor [SDefine ["i"] [(EInt 0)]] (EBin Lt (EVar "i") (EVar "len1")) [SOp (EVar "i") Add (EInt 1)]
     [SExpr (EMethod (EIndex (EField (EVar "t") "Partitions") (EVar "i")) "Encode" [(EVar "e"); (EVar "version")])]].
(** message/messages.gen.go:9254 *)
Definition go_AlterReplicaLogDirTopicResult34_Decode : func := mkFunc [("t", GPtr (GNamed "AlterReplicaLogDirTopicResult34")); ("d", GPtr (GNamed "Decoder")); ("version", GInt I16)] [GNamed "error"]
  [SVar "err" (Some (GNamed "error")) None;
   SAssign [(EField (EVar "t") "TopicName"); (EVar "err")] [(EMethod (EVar "d") "String" [])];
   SIf [] (EBin Ne (EVar "err") ENil)
     [SReturn [(EVar "err")]]
     [];
   SIf [SDefine ["n"; "err"] [(EMethod (EVar "d") "ArrayLength" [])]] (EBin Ne (EVar "err") ENil)
     [SReturn [(EVar "err")]]
     [SIf [] (EBin Ge (EVar "n") (EInt 0))
       [SAssign [(EField (EVar "t") "Partitions")] [(EMake (GSlice (GNamed "AlterReplicaLogDirPartitionResult34")) (EVar "n"))];
        SFor [SDefine ["i"] [(EInt 0)]] (EBin Lt (EVar "i") (EVar "n")) [SOp (EVar "i") Add (EInt 1)]
         [SVar "item" (Some (GNamed "AlterReplicaLogDirPartitionResult34")) None;
          SIf [SDefine ["err"] [(EMethod (EAddr (EVar "item")) "Decode" [(EVar "d"); (EVar "version")])]] (EBin Ne (EVar "err") ENil)
           [SReturn [(EVar "err")]]
           [];
          SAssign [(EIndex (EField (EVar "t") "Partitions") (EVar "i"))] [(EVar "item")]]]
       []];
   SReturn [(EVar "err")]].
(** message/messages.gen.go:9282 *)
Definition go_AlterReplicaLogDirPartitionResult34_Size : func := mkFunc [("t", GNamed "AlterReplicaLogDirPartitionResult34"); ("version", GInt I16)] [GInt I32]
  [SVar "sz" (Some (GInt I32)) None;
   SOp (EVar "sz") Add (EGlobal "sizeof.Int32");
   SOp (EVar "sz") Add (EGlobal "sizeof.Int16");
   SReturn [(EVar "sz")]].
(** message/messages.gen.go:9290 *)
Definition go_AlterReplicaLogDirPartitionResult34_Encode : func := mkFunc [("t", GNamed "AlterReplicaLogDirPartitionResult34"); ("e", GPtr (GNamed "Encoder")); ("version", GInt I16)] []
  [SExpr (EMethod (EVar "e") "PutInt32" [(EField (EVar "t") "PartitionIndex")]);
   SExpr (EMethod (EVar "e") "PutInt16" [(EField (EVar "t") "ErrorCode")])].
(** message/messages.gen.go:9296 *)
Definition go_AlterReplicaLogDirPartitionResult34_Decode : func := mkFunc [("t", GPtr (GNamed "AlterReplicaLogDirPartitionResult34")); ("d", GPtr (GNamed "Decoder")); ("version", GInt I16)] [GNamed "error"]
  [SVar "err" (Some (GNamed "error")) None;
   SAssign [(EField (EVar "t") "PartitionIndex"); (EVar "err")] [(EMethod (EVar "d") "Int32" [])];
   SIf [] (EBin Ne (EVar "err") ENil)
     [SReturn [(EVar "err")]]
     [];
   SAssign [(EField (EVar "t") "ErrorCode"); (EVar "err")] [(EMethod (EVar "d") "Int16" [])];
   SIf [] (EBin Ne (EVar "err") ENil)
     [SReturn [(EVar "err")]]
     [];
   SReturn [(EVar "err")]].
(** message/messages.gen.go:9315 *)
Definition go_DescribeLogDirsRequest_Size : func := mkFunc [("t", GNamed "DescribeLogDirsRequest"); ("version", GInt I16)] [GInt I32]
  [SVar "sz" (Some (GInt I32)) None;
   SOp (EVar "sz") Add (EGlobal "sizeof.ArrayLength");
   SFor [SDefine ["i"] [(EBin Sub (ELen (EField (EVar "t") "Topics")) (EInt 1))]] (EBin Ge (EVar "i") (EInt 0)) [SOp (EVar "i") Sub (EInt 1)]
     [SOp (EVar "sz") Add (EMethod (EIndex (EField (EVar "t") "Topics") (EVar "i")) "Size" [(EVar "version")])];
   SReturn [(EVar "sz")]].
(** message/messages.gen.go:9325 *)
Definition go_DescribeLogDirsRequest_Encode : func := mkFunc [("t", GNamed "DescribeLogDirsRequest"); ("e", GPtr (GNamed "Encoder")); ("version", GInt I16)] []
  [SDefine ["len0"] [(ELen (EField (EVar "t") "Topics"))];
   SExpr (EMethod (EVar "e") "PutArrayLength" [(EVar "len0")]);
   SFor [SDefine ["i"] [(EInt 0)]] (EBin Lt (EVar "i") (EVar "len0")) [SOp (EVar "i") Add (EInt 1)]
     [SExpr (EMethod (EIndex (EField (EVar "t") "Topics") (EVar "i")) "Encode" [(EVar "e"); (EVar "version")])]].
(** message/messages.gen.go:9335 *)
Definition go_DescribeLogDirsRequest_Decode : func := mkFunc [("t", GPtr (GNamed "DescribeLogDirsRequest")); ("d", GPtr (GNamed "Decoder")); ("version", GInt I16)] [GNamed "error"]
  [SVar "err" (Some (GNamed "error")) None;
   SIf [SDefine ["n"; "err"] [(EMethod (EVar "d") "ArrayLength" [])]] (EBin Ne (EVar "err") ENil)
     [SReturn [(EVar "err")]]
     [SIf [] (EBin Ge (EVar "n") (EInt 0))
       [SAssign [(EField (EVar "t") "Topics")] [(EMake (GSlice (GNamed "DescribableLogDirTopic35")) (EVar "n"))];
        SFor [SDefine ["i"] [(EInt 0)]] (EBin Lt (EVar "i") (EVar "n")) [SOp (EVar "i") Add (EInt 1)]
         [SVar "item" (Some (GNamed "DescribableLogDirTopic35")) None;
          SIf [SDefine ["err"] [(EMethod (EAddr (EVar "item")) "Decode" [(EVar "d"); (EVar "version")])]] (EBin Ne (EVar "err") ENil)
           [SReturn [(EVar "err")]]
           [];
          SAssign [(EIndex (EField (EVar "t") "Topics") (EVar "i"))] [(EVar "item")]]]
       []];
   SReturn [(EVar "err")]].
(** message/messages.gen.go:9359 *)
Definition go_DescribableLogDirTopic35_Size : func := mkFunc [("t", GNamed "DescribableLogDirTopic35"); ("version", GInt I16)] [GInt I32]
  [SVar "sz" (Some (GInt I32)) None;
   SOp (EVar "sz") Add (ECall "sizeof.String" [(EField (EVar "t") "Topic")]);
   SOp (EVar "sz") Add (ECall "sizeof.Int32Array" [(EField (EVar "t") "PartitionIndex")]);
   SReturn [(EVar "sz")]].
(** message/messages.gen.go:9367 *)
Definition go_DescribableLogDirTopic35_Encode : func := mkFunc [("t", GNamed "DescribableLogDirTopic35"); ("e", GPtr (GNamed "Encoder")); ("version", GInt I16)] []
  [SExpr (EMethod (EVar "e") "PutString" [(EField (EVar "t") "Topic")]);
   SExpr (EMethod (EVar "e") "PutInt32Array" [(EField (EVar "t") "PartitionIndex")])].
(** message/messages.gen.go:9373 *)
Definition go_DescribableLogDirTopic35_Decode : func := mkFunc [("t", GPtr (GNamed "DescribableLogDirTopic35")); ("d", GPtr (GNamed "Decoder")); ("version", GInt I16)] [GNamed "error"]
  [SVar "err" (Some (GNamed "error")) None;
   SAssign [(EField (EVar "t") "Topic"); (EVar "err")] [(EMethod (EVar "d") "String" [])];
   SIf [] (EBin Ne (EVar "err") ENil)
     [SReturn [(EVar "err")]]
     [];
   SAssign [(EField (EVar "t") "PartitionIndex"); (EVar "err")] [(EMethod (EVar "d") "Int32Array" [])];
   SIf [] (EBin Ne (EVar "err") ENil)
     [SReturn [(EVar "err")]]
     [];
   SReturn [(EVar "err")]].
(** message/messages.gen.go:9393 *)
Definition go_DescribeLogDirsResponse_Size : func := mkFunc [("t", GNamed "DescribeLogDirsResponse"); ("version", GInt I16)] [GInt I32]
  [SVar "sz" (Some (GInt I32)) None;
   SOp (EVar "sz") Add (EGlobal "sizeof.Int32");
   SOp (EVar "sz") Add (EGlobal "sizeof.ArrayLength");
   SFor [SDefine ["i"] [(EBin Sub (ELen (EField (EVar "t") "Results")) (EInt 1))]] (EBin Ge (EVar "i") (EInt 0)) [SOp (EVar "i") Sub (EInt 1)]
     [SOp (EVar "sz") Add (EMethod (EIndex (EField (EVar "t") "Results") (EVar "i")) "Size" [(EVar "version")])];
   SReturn [(EVar "sz")]].
(** message/messages.gen.go:9404 *)
Definition go_DescribeLogDirsResponse_Encode : func := mkFunc [("t", GNamed "DescribeLogDirsResponse"); ("e", GPtr (GNamed "Encoder")); ("version", GInt I16)] []
  [SExpr (EMethod (EVar "e") "PutInt32" [(EField (EVar "t") "ThrottleTimeMs")]);
   SDefine ["len1"] [(ELen (EField (EVar "t") "Results"))];
   SExpr (EMethod (EVar "e") "PutArrayLength" [(EVar "len1")]);
   SFor [SDefine ["i"] [(EInt 0)]] (EBin Lt (EVar "i") (EVar "len1")) [SOp (EVar "i") Add (EInt 1)]
     [SExpr (EMethod (EIndex (EField (EVar "t") "Results") (EVar "i")) "Encode" [(EVar "e"); (EVar "version")])]].
(** message/messages.gen.go:9415 *)
Definition go_DescribeLogDirsResponse_Decode : func := mkFunc [("t", GPtr (GNamed "DescribeLogDirsResponse")); ("d", GPtr (GNamed "Decoder")); ("version", GInt I16)] [GNamed "error"]
  [SVar "err" (Some (GNamed "error")) None;
   SAssign [(EField (EVar "t") "ThrottleTimeMs"); (EVar "err")] [(EMethod (EVar "d") "Int32" [])];
   SIf [] (EBin Ne (EVar "err") ENil)
     [SReturn [(EVar "err")]]
     [];
   SIf [SDefine ["n"; "err"] [(EMethod (EVar "d") "ArrayLength" [])]] (EBin Ne (EVar "err") ENil)
     [SReturn [(EVar "err")]]
     [SIf [] (EBin Ge (EVar "n") (EInt 0))
       [SAssign [(EField (EVar "t") "Results")] [(EMake (GSlice (GNamed "DescribeLogDirsResult35")) (EVar "n"))];
        SFor [SDefine ["i"] [(EInt 0)]] (EBin Lt (EVar "i") (EVar "n")) [SOp (EVar "i") Add (EInt 1)]
         [SVar "item" (Some (GNamed "DescribeLogDirsResult35")) None;
          SIf [SDefine ["err"] [(EMethod (EAddr (EVar "item")) "Decode" [(EVar "d"); (EVar "version")])]] (EBin Ne (EVar "err") ENil)
           [SReturn [(EVar "err")]]
           [];
          SAssign [(EIndex (EField (EVar "t") "Results") (EVar "i"))] [(EVar "item")]]]
       []];
   SReturn [(EVar "err")]].
(** message/messages.gen.go:9444 *)
Definition go_DescribeLogDirsResult35_Size : func := mkFunc [("t", GNamed "DescribeLogDirsResult35"); ("version", GInt I16)] [GInt I32]
  [SVar "sz" (Some (GInt I32)) None;
   SOp (EVar "sz") Add (EGlobal "sizeof.Int16");
   SOp (EVar "sz") Add (ECall "sizeof.String" [(EField (EVar "t") "LogDir")]);
   SOp (EVar "sz") Add (EGlobal "sizeof.ArrayLength");
   SFor [SDefine ["i"] [(EBin Sub (ELen (EField (EVar "t") "Topics")) (EInt 1))]] (EBin Ge (EVar "i") (EInt 0)) [SOp (EVar "i") Sub (EInt 1)]
     [SOp (EVar "sz") Add (EMethod (EIndex (EField (EVar "t") "Topics") (EVar "i")) "Size" [(EVar "version")])];
   SReturn [(EVar "sz")]].
(** message/messages.gen.go:9456 *)
Definition go_DescribeLogDirsResult35_Encode : func := mkFunc [("t", GNamed "DescribeLogDirsResult35"); ("e", GPtr (GNamed "Encoder")); ("version", GInt I16)] []
  [SExpr (EMethod (EVar "e") "PutInt16" [(EField (EVar "t") "ErrorCode")]);
   SExpr (EMethod (EVar "e") "PutString" [(EField (EVar "t") "LogDir")]);
   SDefine ["len2"] [(ELen (EField (EVar "t") "Topics"))];
   SExpr (EMethod (EVar "e") "PutArrayLength" [(EVar "len2")]);
   SFor [SDefine ["i"] [(EInt 0)]] (EBin Lt (EVar "i") (EVar "len2")) [SOp (EVar "i") Add (EInt 1)]
     [SExpr (EMethod (EIndex (EField (EVar "t") "Topics") (EVar "i")) "Encode" [(EVar "e"); (EVar "version")])]].
(** message/messages.gen.go:9468 *)
Definition go_DescribeLogDirsResult35_Decode : func := mkFunc [("t", GPtr (GNamed "DescribeLogDirsResult35")); ("d", GPtr (GNamed "Decoder")); ("version", GInt I16)] [GNamed "error"]
  [SVar "err" (Some (GNamed "error")) None;
   SAssign [(EField (EVar "t") "ErrorCode"); (EVar "err")] [(EMethod (EVar "d") "Int16" [])];
   SIf [] (EBin Ne (EVar "err") ENil)
     [SReturn [(EVar "err")]]
     [];
   SAssign [(EField (EVar "t") "LogDir"); (EVar "err")] [(EMethod (EVar "d") "String" [])];
   SIf [] (EBin Ne (EVar "err") ENil)
     [SReturn [(EVar "err")]]
     [];
   SIf [SDefine ["n"; "err"] [(EMethod (EVar "d") "ArrayLength" [])]] (EBin Ne (EVar "err") ENil)
     [SReturn [(EVar "err")]]
     [SIf [] (EBin Ge (EVar "n") (EInt 0))
       [SAssign [(EField (EVar "t") "Topics")] [(EMake (GSlice (GNamed "DescribeLogDirsTopic35")) (EVar "n"))];
        SFor [SDefine ["i"] [(EInt 0)]] (EBin Lt (EVar "i") (EVar "n")) [SOp (EVar "i") Add (EInt 1)]
         [SVar "item" (Some (GNamed "DescribeLogDirsTopic35")) None;
          SIf [SDefine ["err"] [(EMethod (EAddr (EVar "item")) "Decode" [(EVar "d"); (EVar "version")])]] (EBin Ne (EVar "err") ENil)
           [SReturn [(EVar "err")]]
           [];
          SAssign [(EIndex (EField (EVar "t") "Topics") (EVar "i"))] [(EVar "item")]]]
       []];
   SReturn [(EVar "err")]].
(** message/messages.gen.go:9500 *)
Definition go_DescribeLogDirsTopic35_Size : func := mkFunc [("t", GNamed "DescribeLogDirsTopic35"); ("version", GInt I16)] [GInt I32]
  [SVar "sz" (Some (GInt I32)) None;
   SOp (EVar "sz") Add (ECall "sizeof.String" [(EField (EVar "t") "Name")]);
   SOp (EVar "sz") Add (EGlobal "sizeof.ArrayLength");
   SFor [SDefine ["i"] [(EBin Sub (ELen (EField (EVar "t") "Partitions")) (EInt 1))]] (EBin Ge (EVar "i") (EInt 0)) [SOp (EVar "i") Sub (EInt 1)]
     [SOp (EVar "sz") Add (EMethod (EIndex (EField (EVar "t") "Partitions") (EVar "i")) "Size" [(EVar "version")])];
   SReturn [(EVar "sz")]].
(** message/messages.gen.go:9511 *)
Definition go_DescribeLogDirsTopic35_Encode : func := mkFunc [("t", GNamed "DescribeLogDirsTopic35"); ("e", GPtr (GNamed "Encoder")); ("version", GInt I16)] []
  [SExpr (EMethod (EVar "e") "PutString" [(EField (EVar "t") "Name")]);
   SDefine ["len1"] [(ELen (EField (EVar "t") "Partitions"))];
   SExpr (EMethod (EVar "e") "PutArrayLength" [(EVar "len1")]);
   SFor [SDefine ["i"] [(EInt 0)]] (EBin Lt (EVar "i") (EVar "len1")) [SOp (EVar "i") Add (EInt 1)]
     [SExpr (EMethod (EIndex (EField (EVar "t") "Partitions") (EVar "i")) "Encode" [(EVar "e"); (EVar "version")])]].
(** message/messages.gen.go:9522 *)
Definition go_DescribeLogDirsTopic35_Decode : func := mkFunc [("t", GPtr (GNamed "DescribeLogDirsTopic35")); ("d", GPtr (GNamed "Decoder")); ("version", GInt I16)] [GNamed "error"]
  [SVar "err" (Some (GNamed "error")) None;
   SAssign [(EField (EVar "t") "Name"); (EVar "err")] [(EMethod (EVar "d") "String" [])];
   SIf [] (EBin Ne (EVar "err") ENil)
     [SReturn [(EVar "err")]]
     [];
   SIf [SDefine ["n"; "err"] [(EMethod (EVar "d") "ArrayLength" [])]] (EBin Ne (EVar "err") ENil)
     [SReturn [(EVar "err")]]
     [SIf [] (EBin Ge (EVar "n") (EInt 0))
       [SAssign [(EField (EVar "t") "Partitions")] [(EMake (GSlice (GNamed "DescribeLogDirsPartition35")) (EVar "n"))];
        SFor [SDefine ["i"] [(EInt 0)]] (EBin Lt (EVar "i") (EVar "n")) [SOp (EVar "i") Add (EInt 1)]
         [SVar "item" (Some (GNamed "DescribeLogDirsPartition35")) None;
          SIf [SDefine ["err"] [(EMethod (EAddr (EVar "item")) "Decode" [(EVar "d"); (EVar "version")])]] (EBin Ne (EVar "err") ENil)
           [SReturn [(EVar "err")]]
           [];
          SAssign [(EIndex (EField (EVar "t") "Partitions") (EVar "i"))] [(EVar "item")]]]
       []];
   SReturn [(EVar "err")]].
(** message/messages.gen.go:9552 *)
Definition go_DescribeLogDirsPartition35_Size : func := mkFunc [("t", GNamed "DescribeLogDirsPartition35"); ("version", GInt I16)] [GInt I32]
  [SVar "sz" (Some (GInt I32)) None;
   SOp (EVar "sz") Add (EGlobal "sizeof.Int32");
   SOp (EVar "sz") Add (EGlobal "sizeof.Int64");
   SOp (EVar "sz") Add (EGlobal "sizeof.Int64");
   SOp (EVar "sz") Add (EGlobal "sizeof.Bool");
   SReturn [(EVar "sz")]].
(** message/messages.gen.go:9562 *)
Definition go_DescribeLogDirsPartition35_Encode : func := mkFunc [("t", GNamed "DescribeLogDirsPartition35"); ("e", GPtr (GNamed "Encoder")); ("version", GInt I16)] []
  [SExpr (EMethod (EVar "e") "PutInt32" [(EField (EVar "t") "PartitionIndex")]);
   SExpr (EMethod (EVar "e") "PutInt64" [(EField (EVar "t") "PartitionSize")]);
   SExpr (EMethod (EVar "e") "PutInt64" [(EField (EVar "t") "OffsetLag")]);
   SExpr (EMethod (EVar "e") "PutBool" [(EField (EVar "t") "IsFutureKey")])].
(** message/messages.gen.go:9570 *)
Definition go_DescribeLogDirsPartition35_Decode : func := mkFunc [("t", GPtr (GNamed "DescribeLogDirsPartition35")); ("d", GPtr (GNamed "Decoder")); ("version", GInt I16)] [GNamed "error"]
  [SVar "err" (Some (GNamed "error")) None;
   SAssign [(EField (EVar "t") "PartitionIndex"); (EVar "err")] [(EMethod (EVar "d") "Int32" [])];
   SIf [] (EBin Ne (EVar "err") ENil)
     [SReturn [(EVar "err")]]
     [];
   SAssign [(EField (EVar "t") "PartitionSize"); (EVar "err")] [(EMethod (EVar "d") "Int64" [])];
   SIf [] (EBin Ne (EVar "err") ENil)
     [SReturn [(EVar "err")]]
     [];
   SAssign [(EField (EVar "t") "OffsetLag"); (EVar "err")] [(EMethod (EVar "d") "Int64" [])];
   SIf [] (EBin Ne (EVar "err") ENil)
     [SReturn [(EVar "err")]]
     [];
   SAssign [(EField (EVar "t") "IsFutureKey"); (EVar "err")] [(EMethod (EVar "d") "Bool" [])];
   SIf [] (EBin Ne (EVar "err") ENil)
     [SReturn [(EVar "err")]]
     [];
   SReturn [(EVar "err")]].
(** message/messages.gen.go:9597 *)
Definition go_SaslAuthenticateRequest_Size : func := mkFunc [("t", GNamed "SaslAuthenticateRequest"); ("version", GInt I16)] [GInt I32]
  [SVar "sz" (Some (GInt I32)) None;
   SOp (EVar "sz") Add (ECall "sizeof.Bytes" [(EField (EVar "t") "AuthBytes")]);
   SReturn [(EVar "sz")]].
(** message/messages.gen.go:9604 *)
Definition go_SaslAuthenticateRequest_Encode : func := mkFunc [("t", GNamed "SaslAuthenticateRequest"); ("e", GPtr (GNamed "Encoder")); ("version", GInt I16)] []
  [SExpr (EMethod (EVar "e") "PutBytes" [(EField (EVar "t") "AuthBytes")])].
(** message/messages.gen.go:9609 *)
Definition go_SaslAuthenticateRequest_Decode : func := mkFunc [("t", GPtr (GNamed "SaslAuthenticateRequest")); ("d", GPtr (GNamed "Decoder")); ("version", GInt I16)] [GNamed "error"]
  [SVar "err" (Some (GNamed "error")) None;
   SAssign [(EField (EVar "t") "AuthBytes"); (EVar "err")] [(EMethod (EVar "d") "Bytes" [])];
   SIf [] (EBin Ne (EVar "err") ENil)
     [SReturn [(EVar "err")]]
     [];
   SReturn [(EVar "err")]].
(** message/messages.gen.go:9627 *)
Definition go_SaslAuthenticateResponse_Size : func := mkFunc [("t", GNamed "SaslAuthenticateResponse"); ("version", GInt I16)] [GInt I32]
  [SVar "sz" (Some (GInt I32)) None;
   SOp (EVar "sz") Add (EGlobal "sizeof.Int16");
   SOp (EVar "sz") Add (ECall "sizeof.String" [(EField (EVar "t") "ErrorMessage")]);
   SOp (EVar "sz") Add (ECall "sizeof.Bytes" [(EField (EVar "t") "AuthBytes")]);
   SIf [] (EBin Ge (EVar "version") (EInt 1))
     [SOp (EVar "sz") Add (EGlobal "sizeof.Int64")]
     [];
   SReturn [(EVar "sz")]].
(** message/messages.gen.go:9639 *)
Definition go_SaslAuthenticateResponse_Encode : func := mkFunc [("t", GNamed "SaslAuthenticateResponse"); ("e", GPtr (GNamed "Encoder")); ("version", GInt I16)] []
  [SExpr (EMethod (EVar "e") "PutInt16" [(EField (EVar "t") "ErrorCode")]);
   SExpr (EMethod (EVar "e") "PutString" [(EField (EVar "t") "ErrorMessage")]);
   SExpr (EMethod (EVar "e") "PutBytes" [(EField (EVar "t") "AuthBytes")]);
   SIf [] (EBin Ge (EVar "version") (EInt 1))
     [SExpr (EMethod (EVar "e") "PutInt64" [(EField (EVar "t") "SessionLifetimeMs")])]
     []].
(** message/messages.gen.go:9649 *)
Definition go_SaslAuthenticateResponse_Decode : func := mkFunc [("t", GPtr (GNamed "SaslAuthenticateResponse")); ("d", GPtr (GNamed "Decoder")); ("version", GInt I16)] [GNamed "error"]
  [SVar "err" (Some (GNamed "error")) None;
   SAssign [(EField (EVar "t") "ErrorCode"); (EVar "err")] [(EMethod (EVar "d") "Int16" [])];
   SIf [] (EBin Ne (EVar "err") ENil)
     [SReturn [(EVar "err")]]
     [];
   SAssign [(EField (EVar "t") "ErrorMessage"); (EVar "err")] [(EMethod (EVar "d") "String" [])];
   SIf [] (EBin Ne (EVar "err") ENil)
     [SReturn [(EVar "err")]]
     [];
   SAssign [(EField (EVar "t") "AuthBytes"); (EVar "err")] [(EMethod (EVar "d") "Bytes" [])];
   SIf [] (EBin Ne (EVar "err") ENil)
     [SReturn [(EVar "err")]]
     [];
   SIf [] (EBin Ge (EVar "version") (EInt 1))
     [SAssign [(EField (EVar "t") "SessionLifetimeMs"); (EVar "err")] [(EMethod (EVar "d") "Int64" [])];
      SIf [] (EBin Ne (EVar "err") ENil)
       [SReturn [(EVar "err")]]
       []]
     [];
   SReturn [(EVar "err")]].
(** message/messages.gen.go:9680 *)
Definition go_CreatePartitionsRequest_Size : func := mkFunc [("t", GNamed "CreatePartitionsRequest"); ("version", GInt I16)] [GInt I32]
  [SVar "sz" (Some (GInt I32)) None;
   SOp (EVar "sz") Add (EGlobal "sizeof.ArrayLength");
   SFor [SDefine ["i"] [(EBin Sub (ELen (EField (EVar "t") "Topics")) (EInt 1))]] (EBin Ge (EVar "i") (EInt 0)) [SOp (EVar "i") Sub (EInt 1)]
     [SOp (EVar "sz") Add (EMethod (EIndex (EField (EVar "t") "Topics") (EVar "i")) "Size" [(EVar "version")])];
   SOp (EVar "sz") Add (EGlobal "sizeof.Int32");
   SOp (EVar "sz") Add (EGlobal "sizeof.Bool");
   SReturn [(EVar "sz")]].
(** message/messages.gen.go:9692 *)
Definition go_CreatePartitionsRequest_Encode : func := mkFunc [("t", GNamed "CreatePartitionsRequest"); ("e", GPtr (GNamed "Encoder")); ("version", GInt I16)] []
  [SDefine ["len0"] [(ELen (EField (EVar "t") "Topics"))];
   SExpr (EMethod (EVar "e") "PutArrayLength" [(EVar "len0")]);
   SFor [SDefine ["i"] [(EInt 0)]] (EBin Lt (EVar "i") (EVar "len0")) [SOp (EVar "i") Add (EInt 1)]
     [SExpr (EMethod (EIndex (EField (EVar "t") "Topics") (EVar "i")) "Encode" [(EVar "e"); (EVar "version")])];
   SExpr (EMethod (EVar "e") "PutInt32" [(EField (EVar "t") "TimeoutMs")]);
   SExpr (EMethod (EVar "e") "PutBool" [(EField (EVar "t") "ValidateOnly")])].
(** message/messages.gen.go:9704 *)
Definition go_CreatePartitionsRequest_Decode : func := mkFunc [("t", GPtr (GNamed "CreatePartitionsRequest")); ("d", GPtr (GNamed "Decoder")); ("version", GInt I16)] [GNamed "error"]
  [SVar "err" (Some (GNamed "error")) None;
   SIf [SDefine ["n"; "err"] [(EMethod (EVar "d") "ArrayLength" [])]] (EBin Ne (EVar "err") ENil)
     [SReturn [(EVar "err")]]
     [SIf [] (EBin Ge (EVar "n") (EInt 0))
       [SAssign [(EField (EVar "t") "Topics")] [(EMake (GSlice (GNamed "CreatePartitionsTopic37")) (EVar "n"))];
        SFor [SDefine ["i"] [(EInt 0)]] (EBin Lt (EVar "i") (EVar "n")) [SOp (EVar "i") Add (EInt 1)]
         [SVar "item" (Some (GNamed "CreatePartitionsTopic37")) None;
          SIf [SDefine ["err"] [(EMethod (EAddr (EVar "item")) "Decode" [(EVar "d"); (EVar "version")])]] (EBin Ne (EVar "err") ENil)
           [SReturn [(EVar "err")]]
           [];
          SAssign [(EIndex (EField (EVar "t") "Topics") (EVar "i"))] [(EVar "item")]]]
       []];
   SAssign [(EField (EVar "t") "TimeoutMs"); (EVar "err")] [(EMethod (EVar "d") "Int32" [])];
   SIf [] (EBin Ne (EVar "err") ENil)
     [SReturn [(EVar "err")]]
     [];
   SAssign [(EField (EVar "t") "ValidateOnly"); (EVar "err")] [(EMethod (EVar "d") "Bool" [])];
   SIf [] (EBin Ne (EVar "err") ENil)
     [SReturn [(EVar "err")]]
     [];
   SReturn [(EVar "err")]].
(** message/messages.gen.go:9737 *)
Definition go_CreatePartitionsTopic37_Size : func := mkFunc [("t", GNamed "CreatePartitionsTopic37"); ("version", GInt I16)] [GInt I32]
  [SVar "sz" (Some (GInt I32)) None;
   SOp (EVar "sz") Add (ECall "sizeof.String" [(EField (EVar "t") "Name")]);
   SOp (EVar "sz") Add (EGlobal "sizeof.Int32");
   SOp (EVar "sz") Add (EGlobal "sizeof.ArrayLength");
   SFor [SDefine ["i"] [(EBin Sub (ELen (EField (EVar "t") "Assignments")) (EInt 1))]] (EBin Ge (EVar "i") (EInt 0)) [SOp (EVar "i") Sub (EInt 1)]
     [SOp (EVar "sz") Add (EMethod (EIndex (EField (EVar "t") "Assignments") (EVar "i")) "Size" [(EVar "version")])];
   SReturn [(EVar "sz")]].
(** message/messages.gen.go:9749 *)
Definition go_CreatePartitionsTopic37_Encode : func := mkFunc [("t", GNamed "CreatePartitionsTopic37"); ("e", GPtr (GNamed "Encoder")); ("version", GInt I16)] []
  [SExpr (EMethod (EVar "e") "PutString" [(EField (EVar "t") "Name")]);
   SExpr (EMethod (EVar "e") "PutInt32" [(EField (EVar "t") "Count")]);
   SDefine ["len2"] [(ELen (EField (EVar "t") "Assignments"))];
   SExpr (EMethod (EVar "e") "PutArrayLength" [(EVar "len2")]);
   SFor [SDefine ["i"] [(EInt 0)]] (EBin Lt (EVar "i") (EVar "len2")) [SOp (EVar "i") Add (EInt 1)]
     [SExpr (EMethod (EIndex (EField (EVar "t") "Assignments") (EVar "i")) "Encode" [(EVar "e"); (EVar "version")])]].
(** message/messages.gen.go:9761 *)
Definition go_CreatePartitionsTopic37_Decode : func := mkFunc [("t", GPtr (GNamed "CreatePartitionsTopic37")); ("d", GPtr (GNamed "Decoder")); ("version", GInt I16)] [GNamed "error"]
  [SVar "err" (Some (GNamed "error")) None;
   SAssign [(EField (EVar "t") "Name"); (EVar "err")] [(EMethod (EVar "d") "String" [])];
   SIf [] (EBin Ne (EVar "err") ENil)
     [SReturn [(EVar "err")]]
     [];
   SAssign [(EField (EVar "t") "Count"); (EVar "err")] [(EMethod (EVar "d") "Int32" [])];
   SIf [] (EBin Ne (EVar "err") ENil)
     [SReturn [(EVar "err")]]
     [];
   SIf [SDefine ["n"; "err"] [(EMethod (EVar "d") "ArrayLength" [])]] (EBin Ne (EVar "err") ENil)
     [SReturn [(EVar "err")]]
     [SIf [] (EBin Ge (EVar "n") (EInt 0))
       [SAssign [(EField (EVar "t") "Assignments")] [(EMake (GSlice (GNamed "CreatePartitionsAssignment37")) (EVar "n"))];
        SFor [SDefine ["i"] [(EInt 0)]] (EBin Lt (EVar "i") (EVar "n")) [SOp (EVar "i") Add (EInt 1)]
         [SVar "item" (Some (GNamed "CreatePartitionsAssignment37")) None;
          SIf [SDefine ["err"] [(EMethod (EAddr (EVar "item")) "Decode" [(EVar "d"); (EVar "version")])]] (EBin Ne (EVar "err") ENil)
           [SReturn [(EVar "err")]]
           [];
          SAssign [(EIndex (EField (EVar "t") "Assignments") (EVar "i"))] [(EVar "item")]]]
       []];
   SReturn [(EVar "err")]].
(** message/messages.gen.go:9792 *)
Definition go_CreatePartitionsAssignment37_Size : func := mkFunc [("t", GNamed "CreatePartitionsAssignment37"); ("version", GInt I16)] [GInt I32]
  [SVar "sz" (Some (GInt I32)) None;
   SOp (EVar "sz") Add (ECall "sizeof.Int32Array" [(EField (EVar "t") "BrokerIds")]);
   SReturn [(EVar "sz")]].
(** message/messages.gen.go:9799 *)
Definition go_CreatePartitionsAssignment37_Encode : func := mkFunc [("t", GNamed "CreatePartitionsAssignment37"); ("e", GPtr (GNamed "Encoder")); ("version", GInt I16)] []
  [SExpr (EMethod (EVar "e") "PutInt32Array" [(EField (EVar "t") "BrokerIds")])].
(** message/messages.gen.go:9804 *)
Definition go_CreatePartitionsAssignment37_Decode : func := mkFunc [("t", GPtr (GNamed "CreatePartitionsAssignment37")); ("d", GPtr (GNamed "Decoder")); ("version", GInt I16)] [GNamed "error"]
  [SVar "err" (Some (GNamed "error")) None;
   SAssign [(EField (EVar "t") "BrokerIds"); (EVar "err")] [(EMethod (EVar "d") "Int32Array" [])];
   SIf [] (EBin Ne (EVar "err") ENil)
     [SReturn [(EVar "err")]]
     [];
   SReturn [(EVar "err")]].
(** message/messages.gen.go:9820 *)
Definition go_CreatePartitionsResponse_Size : func := mkFunc [("t", GNamed "CreatePartitionsResponse"); ("version", GInt I16)] [GInt I32]
  [SVar "sz" (Some (GInt I32)) None;
   SOp (EVar "sz") Add (EGlobal "sizeof.Int32");
   SOp (EVar "sz") Add (EGlobal "sizeof.ArrayLength");
   SFor [SDefine ["i"] [(EBin Sub (ELen (EField (EVar "t") "Results")) (EInt 1))]] (EBin Ge (EVar "i") (EInt 0)) [SOp (EVar "i") Sub (EInt 1)]
     [SOp (EVar "sz") Add (EMethod (EIndex (EField (EVar "t") "Results") (EVar "i")) "Size" [(EVar "version")])];
   SReturn [(EVar "sz")]].
(** message/messages.gen.go:9831 *)
Definition go_CreatePartitionsResponse_Encode : func := mkFunc [("t", GNamed "CreatePartitionsResponse"); ("e", GPtr (GNamed "Encoder")); ("version", GInt I16)] []
  [SExpr (EMethod (EVar "e") "PutInt32" [(EField (EVar "t") "ThrottleTimeMs")]);
   SDefine ["len1"] [(ELen (EField (EVar "t") "Results"))];
   SExpr (EMethod (EVar "e") "PutArrayLength" [(EVar "len1")]);
   SFor [SDefine ["i"] [(EInt 0)]] (EBin Lt (EVar "i") (EVar "len1")) [SOp (EVar "i") Add (EInt 1)]
     [SExpr (EMethod (EIndex (EField (EVar "t") "Results") (EVar "i")) "Encode" [(EVar "e"); (EVar "version")])]].
(** message/messages.gen.go:9842 *)
Definition go_CreatePartitionsResponse_Decode : func := mkFunc [("t", GPtr (GNamed "CreatePartitionsResponse")); ("d", GPtr (GNamed "Decoder")); ("version", GInt I16)] [GNamed "error"]
  [SVar "err" (Some (GNamed "error")) None;
   SAssign [(EField (EVar "t") "ThrottleTimeMs"); (EVar "err")] [(EMethod (EVar "d") "Int32" [])];
   SIf [] (EBin Ne (EVar "err") ENil)
     [SReturn [(EVar "err")]]
     [];
   SIf [SDefine ["n"; "err"] [(EMethod (EVar "d") "ArrayLength" [])]] (EBin Ne (EVar "err") ENil)
     [SReturn [(EVar "err")]]
     [SIf [] (EBin Ge (EVar "n") (EInt 0))
       [SAssign [(EField (EVar "t") "Results")] [(EMake (GSlice (GNamed "CreatePartitionsTopicResult37")) (EVar "n"))];
        SFor [SDefine ["i"] [(EInt 0)]] (EBin Lt (EVar "i") (EVar "n")) [SOp (EVar "i") Add (EInt 1)]
         [SVar "item" (Some (GNamed "CreatePartitionsTopicResult37")) None;
          SIf [SDefine ["err"] [(EMethod (EAddr (EVar "item")) "Decode" [(EVar "d"); (EVar "version")])]] (EBin Ne (EVar "err") ENil)
           [SReturn [(EVar "err")]]
           [];
          SAssign [(EIndex (EField (EVar "t") "Results") (EVar "i"))] [(EVar "item")]]]
       []];
   SReturn [(EVar "err")]].
(** message/messages.gen.go:9871 *)
Definition go_CreatePartitionsTopicResult37_Size : func := mkFunc [("t", GNamed "CreatePartitionsTopicResult37"); ("version", GInt I16)] [GInt I32]
  [SVar "sz" (Some (GInt I32)) None;
   SOp (EVar "sz") Add (ECall "sizeof.String" [(EField (EVar "t") "Name")]);
   SOp (EVar "sz") Add (EGlobal "sizeof.Int16");
   SOp (EVar "sz") Add (ECall "sizeof.String" [(EField (EVar "t") "ErrorMessage")]);
   SReturn [(EVar "sz")]].
(** message/messages.gen.go:9880 *)
Definition go_CreatePartitionsTopicResult37_Encode : func := mkFunc [("t", GNamed "CreatePartitionsTopicResult37"); ("e", GPtr (GNamed "Encoder")); ("version", GInt I16)] []
  [SExpr (EMethod (EVar "e") "PutString" [(EField (EVar "t") "Name")]);
   SExpr (EMethod (EVar "e") "PutInt16" [(EField (EVar "t") "ErrorCode")]);
   SExpr (EMethod (EVar "e") "PutString" [(EField (EVar "t") "ErrorMessage")])].
(** message/messages.gen.go:9887 *)
Definition go_CreatePartitionsTopicResult37_Decode : func := mkFunc [("t", GPtr (GNamed "CreatePartitionsTopicResult37")); ("d", GPtr (GNamed "Decoder")); ("version", GInt I16)] [GNamed "error"]
  [SVar "err" (Some (GNamed "error")) None;
   SAssign [(EField (EVar "t") "Name"); (EVar "err")] [(EMethod (EVar "d") "String" [])];
   SIf [] (EBin Ne (EVar "err") ENil)
     [SReturn [(EVar "err")]]
     [];
   SAssign [(EField (EVar "t") "ErrorCode"); (EVar "err")] [(EMethod (EVar "d") "Int16" [])];
   SIf [] (EBin Ne (EVar "err") ENil)
     [SReturn [(EVar "err")]]
     [];
   SAssign [(EField (EVar "t") "ErrorMessage"); (EVar "err")] [(EMethod (EVar "d") "String" [])];
   SIf [] (EBin Ne (EVar "err") ENil)
     [SReturn [(EVar "err")]]
     [];
   SReturn [(EVar "err")]].
(** message/messages.gen.go:9911 *)
Definition go_CreateDelegationTokenRequest_Size : func := mkFunc [("t", GNamed "CreateDelegationTokenRequest"); ("version", GInt I16)] [GInt I32]
  [SVar "sz" (Some (GInt I32)) None;
   SOp (EVar "sz") Add (EGlobal "sizeof.ArrayLength");
   SFor [SDefine ["i"] [(EBin Sub (ELen (EField (EVar "t") "Renewers")) (EInt 1))]] (EBin Ge (EVar "i") (EInt 0)) [SOp (EVar "i") Sub (EInt 1)]
     [SOp (EVar "sz") Add (EMethod (EIndex (EField (EVar "t") "Renewers") (EVar "i")) "Size" [(EVar "version")])];
   SOp (EVar "sz") Add (EGlobal "sizeof.Int64");
   SReturn [(EVar "sz")]].
(** message/messages.gen.go:9922 *)
Definition go_CreateDelegationTokenRequest_Encode : func := mkFunc [("t", GNamed "CreateDelegationTokenRequest"); ("e", GPtr (GNamed "Encoder")); ("version", GInt I16)] []
  [SDefine ["len0"] [(ELen (EField (EVar "t") "Renewers"))];
   SExpr (EMethod (EVar "e") "PutArrayLength" [(EVar "len0")]);
   SFor [SDefine ["i"] [(EInt 0)]] (EBin Lt (EVar "i") (EVar "len0")) [SOp (EVar "i") Add (EInt 1)]
     [SExpr (EMethod (EIndex (EField (EVar "t") "Renewers") (EVar "i")) "Encode" [(EVar "e"); (EVar "version")])];
   SExpr (EMethod (EVar "e") "PutInt64" [(EField (EVar "t") "MaxLifetimeMs")])].
(** message/messages.gen.go:9933 *)
Definition go_CreateDelegationTokenRequest_Decode : func := mkFunc [("t", GPtr (GNamed "CreateDelegationTokenRequest")); ("d", GPtr (GNamed "Decoder")); ("version", GInt I16)] [GNamed "error"]
  [SVar "err" (Some (GNamed "error")) None;
   SIf [SDefine ["n"; "err"] [(EMethod (EVar "d") "ArrayLength" [])]] (EBin Ne (EVar "err") ENil)
     [SReturn [(EVar "err")]]
     [SIf [] (EBin Ge (EVar "n") (EInt 0))
       [SAssign [(EField (EVar "t") "Renewers")] [(EMake (GSlice (GNamed "CreatableRenewers38")) (EVar "n"))];
        SFor [SDefine ["i"] [(EInt 0)]] (EBin Lt (EVar "i") (EVar "n")) [SOp (EVar "i") Add (EInt 1)]
         [SVar "item" (Some (GNamed "CreatableRenewers38")) None;
          SIf [SDefine ["err"] [(EMethod (EAddr (EVar "item")) "Decode" [(EVar "d"); (EVar "version")])]] (EBin Ne (EVar "err") ENil)
           [SReturn [(EVar "err")]]
           [];
          SAssign [(EIndex (EField (EVar "t") "Renewers") (EVar "i"))] [(EVar "item")]]]
       []];
   SAssign [(EField (EVar "t") "MaxLifetimeMs"); (EVar "err")] [(EMethod (EVar "d") "Int64" [])];
   SIf [] (EBin Ne (EVar "err") ENil)
     [SReturn [(EVar "err")]]
     [];
   SReturn [(EVar "err")]].
(** message/messages.gen.go:9961 *)
Definition go_CreatableRenewers38_Size : func := mkFunc [("t", GNamed "CreatableRenewers38"); ("version", GInt I16)] [GInt I32]
  [SVar "sz" (Some (GInt I32)) None;
   SOp (EVar "sz") Add (ECall "sizeof.String" [(EField (EVar "t") "PrincipalType")]);
   SOp (EVar "sz") Add (ECall "sizeof.String" [(EField (EVar "t") "PrincipalName")]);
   SReturn [(EVar "sz")]].
(** message/messages.gen.go:9969 *)
Definition go_CreatableRenewers38_Encode : func := mkFunc [("t", GNamed "CreatableRenewers38"); ("e", GPtr (GNamed "Encoder")); ("version", GInt I16)] []
  [SExpr (EMethod (EVar "e") "PutString" [(EField (EVar "t") "PrincipalType")]);
   SExpr (EMethod (EVar "e") "PutString" [(EField (EVar "t") "PrincipalName")])].
(** message/messages.gen.go:9975 *)
Definition go_CreatableRenewers38_Decode : func := mkFunc [("t", GPtr (GNamed "CreatableRenewers38")); ("d", GPtr (GNamed "Decoder")); ("version", GInt I16)] [GNamed "error"]
  [SVar "err" (Some (GNamed "error")) None;
   SAssign [(EField (EVar "t") "PrincipalType"); (EVar "err")] [(EMethod (EVar "d") "String" [])];
   SIf [] (EBin Ne (EVar "err") ENil)
     [SReturn [(EVar "err")]]
     [];
   SAssign [(EField (EVar "t") "PrincipalName"); (EVar "err")] [(EMethod (EVar "d") "String" [])];
   SIf [] (EBin Ne (EVar "err") ENil)
     [SReturn [(EVar "err")]]
     [];
   SReturn [(EVar "err")]].
(** message/messages.gen.go:10002 *)
Definition go_CreateDelegationTokenResponse_Size : func := mkFunc [("t", GNamed "CreateDelegationTokenResponse"); ("version", GInt I16)] [GInt I32]
  [SVar "sz" (Some (GInt I32)) None;
   SOp (EVar "sz") Add (EGlobal "sizeof.Int16");
   SOp (EVar "sz") Add (ECall "sizeof.String" [(EField (EVar "t") "PrincipalType")]);
   SOp (EVar "sz") Add (ECall "sizeof.String" [(EField (EVar "t") "PrincipalName")]);
   SOp (EVar "sz") Add (EGlobal "sizeof.Int64");
   SOp (EVar "sz") Add (EGlobal "sizeof.Int64");
   SOp (EVar "sz") Add (EGlobal "sizeof.Int64");
   SOp (EVar "sz") Add (ECall "sizeof.String" [(EField (EVar "t") "TokenId")]);
   SOp (EVar "sz") Add (ECall "sizeof.Bytes" [(EField (EVar "t") "Hmac")]);
   SOp (EVar "sz") Add (EGlobal "sizeof.Int32");
   SReturn [(EVar "sz")]].
(** message/messages.gen.go:10017 *)
Definition go_CreateDelegationTokenResponse_Encode : func := mkFunc [("t", GNamed "CreateDelegationTokenResponse"); ("e", GPtr (GNamed "Encoder")); ("version", GInt I16)] []
  [SExpr (EMethod (EVar "e") "PutInt16" [(EField (EVar "t") "ErrorCode")]);
   SExpr (EMethod (EVar "e") "PutString" [(EField (EVar "t") "PrincipalType")]);
   SExpr (EMethod (EVar "e") "PutString" [(EField (EVar "t") "PrincipalName")]);
   SExpr (EMethod (EVar "e") "PutInt64" [(EField (EVar "t") "IssueTimestampMs")]);
   SExpr (EMethod (EVar "e") "PutInt64" [(EField (EVar "t") "ExpiryTimestampMs")]);
   SExpr (EMethod (EVar "e") "PutInt64" [(EField (EVar "t") "MaxTimestampMs")]);
   SExpr (EMethod (EVar "e") "PutString" [(EField (EVar "t") "TokenId")]);
   SExpr (EMethod (EVar "e") "PutBytes" [(EField (EVar "t") "Hmac")]);
   SExpr (EMethod (EVar "e") "PutInt32" [(EField (EVar "t") "ThrottleTimeMs")])].
(** message/messages.gen.go:10030 *)
Definition go_CreateDelegationTokenResponse_Decode : func := mkFunc [("t", GPtr (GNamed "CreateDelegationTokenResponse")); ("d", GPtr (GNamed "Decoder")); ("version", GInt I16)] [GNamed "error"]
  [SVar "err" (Some (GNamed "error")) None;
   SAssign [(EField (EVar "t") "ErrorCode"); (EVar "err")] [(EMethod (EVar "d") "Int16" [])];
   SIf [] (EBin Ne (EVar "err") ENil)
     [SReturn [(EVar "err")]]
     [];
   SAssign [(EField (EVar "t") "PrincipalType"); (EVar "err")] [(EMethod (EVar "d") "String" [])];
   SIf [] (EBin Ne (EVar "err") ENil)
     [SReturn [(EVar "err")]]
     [];
   SAssign [(EField (EVar "t") "PrincipalName"); (EVar "err")] [(EMethod (EVar "d") "String" [])];
   SIf [] (EBin Ne (EVar "err") ENil)
     [SReturn [(EVar "err")]]
     [];
   SAssign [(EField (EVar "t") "IssueTimestampMs"); (EVar "err")] [(EMethod (EVar "d") "Int64" [])];
   SIf [] (EBin Ne (EVar "err") ENil)
     [SReturn [(EVar "err")]]
     [];
   SAssign [(EField (EVar "t") "ExpiryTimestampMs"); (EVar "err")] [(EMethod (EVar "d") "Int64" [])];
   SIf [] (EBin Ne (EVar "err") ENil)
     [SReturn [(EVar "err")]]
     [];
   SAssign [(EField (EVar "t") "MaxTimestampMs"); (EVar "err")] [(EMethod (EVar "d") "Int64" [])];
   SIf [] (EBin Ne (EVar "err") ENil)
     [SReturn [(EVar "err")]]
     [];
   SAssign [(EField (EVar "t") "TokenId"); (EVar "err")] [(EMethod (EVar "d") "String" [])];
   SIf [] (EBin Ne (EVar "err") ENil)
     [SReturn [(EVar "err")]]
     [];
   SAssign [(EField (EVar "t") "Hmac"); (EVar "err")] [(EMethod (EVar "d") "Bytes" [])];
   SIf [] (EBin Ne (EVar "err") ENil)
     [SReturn [(EVar "err")]]
     [];
   SAssign [(EField (EVar "t") "ThrottleTimeMs"); (EVar "err")] [(EMethod (EVar "d") "Int32" [])];
   SIf [] (EBin Ne (EVar "err") ENil)
     [SReturn [(EVar "err")]]
     [];
   SReturn [(EVar "err")]].
(** message/messages.gen.go:10078 *)
Definition go_RenewDelegationTokenRequest_Size : func := mkFunc [("t", GNamed "RenewDelegationTokenRequest"); ("version", GInt I16)] [GInt I32]
  [SVar "sz" (Some (GInt I32)) None;
   SOp (EVar "sz") Add (ECall "sizeof.Bytes" [(EField (EVar "t") "Hmac")]);
   SOp (EVar "sz") Add (EGlobal "sizeof.Int64");
   SReturn [(EVar "sz")]].
(** message/messages.gen.go:10086 *)
Definition go_RenewDelegationTokenRequest_Encode : func := mkFunc [("t", GNamed "RenewDelegationTokenRequest"); ("e", GPtr (GNamed "Encoder")); ("version", GInt I16)] []
  [SExpr (EMethod (EVar "e") "PutBytes" [(EField (EVar "t") "Hmac")]);
   SExpr (EMethod (EVar "e") "PutInt64" [(EField (EVar "t") "RenewPeriodMs")])].
(** message/messages.gen.go:10092 *)
Definition go_RenewDelegationTokenRequest_Decode : func := mkFunc [("t", GPtr (GNamed "RenewDelegationTokenRequest")); ("d", GPtr (GNamed "Decoder")); ("version", GInt I16)] [GNamed "error"]
  [SVar "err" (Some (GNamed "error")) None;
   SAssign [(EField (EVar "t") "Hmac"); (EVar "err")] [(EMethod (EVar "d") "Bytes" [])];
   SIf [] (EBin Ne (EVar "err") ENil)
     [SReturn [(EVar "err")]]
     [];
   SAssign [(EField (EVar "t") "RenewPeriodMs"); (EVar "err")] [(EMethod (EVar "d") "Int64" [])];
   SIf [] (EBin Ne (EVar "err") ENil)
     [SReturn [(EVar "err")]]
     [];
   SReturn [(EVar "err")]].
(** message/messages.gen.go:10113 *)
Definition go_RenewDelegationTokenResponse_Size : func := mkFunc [("t", GNamed "RenewDelegationTokenResponse"); ("version", GInt I16)] [GInt I32]
  [SVar "sz" (Some (GInt I32)) None;
   SOp (EVar "sz") Add (EGlobal "sizeof.Int16");
   SOp (EVar "sz") Add (EGlobal "sizeof.Int64");
   SOp (EVar "sz") Add (EGlobal "sizeof.Int32");
   SReturn [(EVar "sz")]].
(** message/messages.gen.go:10122 *)
Definition go_RenewDelegationTokenResponse_Encode : func := mkFunc [("t", GNamed "RenewDelegationTokenResponse"); ("e", GPtr (GNamed "Encoder")); ("version", GInt I16)] []
  [SExpr (EMethod (EVar "e") "PutInt16" [(EField (EVar "t") "ErrorCode")]);
   SExpr (EMethod (EVar "e") "PutInt64" [(EField (EVar "t") "ExpiryTimestampMs")]);
   SExpr (EMethod (EVar "e") "PutInt32" [(EField (EVar "t") "ThrottleTimeMs")])].
(** message/messages.gen.go:10129 *)
Definition go_RenewDelegationTokenResponse_Decode : func := mkFunc [("t", GPtr (GNamed "RenewDelegationTokenResponse")); ("d", GPtr (GNamed "Decoder")); ("version", GInt I16)] [GNamed "error"]
  [SVar "err" (Some (GNamed "error")) None;
   SAssign [(EField (EVar "t") "ErrorCode"); (EVar "err")] [(EMethod (EVar "d") "Int16" [])];
   SIf [] (EBin Ne (EVar "err") ENil)
     [SReturn [(EVar "err")]]
     [];
   SAssign [(EField (EVar "t") "ExpiryTimestampMs"); (EVar "err")] [(EMethod (EVar "d") "Int64" [])];
   SIf [] (EBin Ne (EVar "err") ENil)
     [SReturn [(EVar "err")]]
     [];
   SAssign [(EField (EVar "t") "ThrottleTimeMs"); (EVar "err")] [(EMethod (EVar "d") "Int32" [])];
   SIf [] (EBin Ne (EVar "err") ENil)
     [SReturn [(EVar "err")]]
     [];
   SReturn [(EVar "err")]].
(** message/messages.gen.go:10153 *)
Definition go_ExpireDelegationTokenRequest_Size : func := mkFunc [("t", GNamed "ExpireDelegationTokenRequest"); ("version", GInt I16)] [GInt I32]
  [SVar "sz" (Some (GInt I32)) None;
   SOp (EVar "sz") Add (ECall "sizeof.Bytes" [(EField (EVar "t") "Hmac")]);
   SOp (EVar "sz") Add (EGlobal "sizeof.Int64");
   SReturn [(EVar "sz")]].
(** message/messages.gen.go:10161 *)
Definition go_ExpireDelegationTokenRequest_Encode : func := mkFunc [("t", GNamed "ExpireDelegationTokenRequest"); ("e", GPtr (GNamed "Encoder")); ("version", GInt I16)] []
  [SExpr (EMethod (EVar "e") "PutBytes" [(EField (EVar "t") "Hmac")]);
   SExpr (EMethod (EVar "e") "PutInt64" [(EField (EVar "t") "ExpiryTimePeriodMs")])].
(** message/messages.gen.go:10167 *)
Definition go_ExpireDelegationTokenRequest_Decode : func := mkFunc [("t", GPtr (GNamed "ExpireDelegationTokenRequest")); ("d", GPtr (GNamed "Decoder")); ("version", GInt I16)] [GNamed "error"]
  [SVar "err" (Some (GNamed "error")) None;
   SAssign [(EField (EVar "t") "Hmac"); (EVar "err")] [(EMethod (EVar "d") "Bytes" [])];
   SIf [] (EBin Ne (EVar "err") ENil)
     [SReturn [(EVar "err")]]
     [];
   SAssign [(EField (EVar "t") "ExpiryTimePeriodMs"); (EVar "err")] [(EMethod (EVar "d") "Int64" [])];
   SIf [] (EBin Ne (EVar "err") ENil)
     [SReturn [(EVar "err")]]
     [];
   SReturn [(EVar "err")]].
(** message/messages.gen.go:10188 *)
Definition go_ExpireDelegationTokenResponse_Size : func := mkFunc [("t", GNamed "ExpireDelegationTokenResponse"); ("version", GInt I16)] [GInt I32]
  [SVar "sz" (Some (GInt I32)) None;
   SOp (EVar "sz") Add (EGlobal "sizeof.Int16");
   SOp (EVar "sz") Add (EGlobal "sizeof.Int64");
   SOp (EVar "sz") Add (EGlobal "sizeof.Int32");
   SReturn [(EVar "sz")]].
(** message/messages.gen.go:10197 *)
Definition go_ExpireDelegationTokenResponse_Encode : func := mkFunc [("t", GNamed "ExpireDelegationTokenResponse"); ("e", GPtr (GNamed "Encoder")); ("version", GInt I16)] []
  [SExpr (EMethod (EVar "e") "PutInt16" [(EField (EVar "t") "ErrorCode")]);
   SExpr (EMethod (EVar "e") "PutInt64" [(EField (EVar "t") "ExpiryTimestampMs")]);
   SExpr (EMethod (EVar "e") "PutInt32" [(EField (EVar "t") "ThrottleTimeMs")])].
(** message/messages.gen.go:10204 *)
Definition go_ExpireDelegationTokenResponse_Decode : func := mkFunc [("t", GPtr (GNamed "ExpireDelegationTokenResponse")); ("d", GPtr (GNamed "Decoder")); ("version", GInt I16)] [GNamed "error"]
  [SVar "err" (Some (GNamed "error")) None;
   SAssign [(EField (EVar "t") "ErrorCode"); (EVar "err")] [(EMethod (EVar "d") "Int16" [])];
   SIf [] (EBin Ne (EVar "err") ENil)
     [SReturn [(EVar "err")]]
     [];
   SAssign [(EField (EVar "t") "ExpiryTimestampMs"); (EVar "err")] [(EMethod (EVar "d") "Int64" [])];
   SIf [] (EBin Ne (EVar "err") ENil)
     [SReturn [(EVar "err")]]
     [];
   SAssign [(EField (EVar "t") "ThrottleTimeMs"); (EVar "err")] [(EMethod (EVar "d") "Int32" [])];
   SIf [] (EBin Ne (EVar "err") ENil)
     [SReturn [(EVar "err")]]
     [];
   SReturn [(EVar "err")]].
(** message/messages.gen.go:10227 *)
Definition go_DescribeDelegationTokenRequest_Size : func := mkFunc [("t", GNamed "DescribeDelegationTokenRequest"); ("version", GInt I16)] [GInt I32]
  [SVar "sz" (Some (GInt I32)) None;
   SOp (EVar "sz") Add (EGlobal "sizeof.ArrayLength");
   SFor [SDefine ["i"] [(EBin Sub (ELen (EField (EVar "t") "Owners")) (EInt 1))]] (EBin Ge (EVar "i") (EInt 0)) [SOp (EVar "i") Sub (EInt 1)]
     [SOp (EVar "sz") Add (EMethod (EIndex (EField (EVar "t") "Owners") (EVar "i")) "Size" [(EVar "version")])];
   SReturn [(EVar "sz")]].
(** message/messages.gen.go:10237 *)
Definition go_DescribeDelegationTokenRequest_Encode : func := mkFunc [("t", GNamed "DescribeDelegationTokenRequest"); ("e", GPtr (GNamed "Encoder")); ("version", GInt I16)] []
  [SDefine ["len0"] [(ELen (EField (EVar "t") "Owners"))];
   SExpr (EMethod (EVar "e") "PutArrayLength" [(EVar "len0")]);
   SFor [SDefine ["i"] [(EInt 0)]] (EBin Lt (EVar "i") (EVar "len0")) [SOp (EVar "i") Add (EInt 1)]
     [SExpr (EMethod (EIndex (EField (EVar "t") "Owners") (EVar "i")) "Encode" [(EVar "e"); (EVar "version")])]].
(** message/messages.gen.go:10247 *)
Definition go_DescribeDelegationTokenRequest_Decode : func := mkFunc [("t", GPtr (GNamed "DescribeDelegationTokenRequest")); ("d", GPtr (GNamed "Decoder")); ("version", GInt I16)] [GNamed "error"]
  [SVar "err" (Some (GNamed "error")) None;
   SIf [SDefine ["n"; "err"] [(EMethod (EVar "d") "ArrayLength" [])]] (EBin Ne (EVar "err") ENil)
     [SReturn [(EVar "err")]]
     [SIf [] (EBin Ge (EVar "n") (EInt 0))
       [SAssign [(EField (EVar "t") "Owners")] [(EMake (GSlice (GNamed "DescribeDelegationTokenOwner41")) (EVar "n"))];
        SFor [SDefine ["i"] [(EInt 0)]] (EBin Lt (EVar "i") (EVar "n")) [SOp (EVar "i") Add (EInt 1)]
         [SVar "item" (Some (GNamed "DescribeDelegationTokenOwner41")) None;
          SIf [SDefine ["err"] [(EMethod (EAddr (EVar "item")) "Decode" [(EVar "d"); (EVar "version")])]] (EBin Ne (EVar "err") ENil)
           [SReturn [(EVar "err")]]
           [];
          SAssign [(EIndex (EField (EVar "t") "Owners") (EVar "i"))] [(EVar "item")]]]
       []];
   SReturn [(EVar "err")]].
(** message/messages.gen.go:10271 *)
Definition go_DescribeDelegationTokenOwner41_Size : func := mkFunc [("t", GNamed "DescribeDelegationTokenOwner41"); ("version", GInt I16)] [GInt I32]
  [SVar "sz" (Some (GInt I32)) None;
   SOp (EVar "sz") Add (ECall "sizeof.String" [(EField (EVar "t") "PrincipalType")]);
   SOp (EVar "sz") Add (ECall "sizeof.String" [(EField (EVar "t") "PrincipalName")]);
   SReturn [(EVar "sz")]].
(** message/messages.gen.go:10279 *)
Definition go_DescribeDelegationTokenOwner41_Encode : func := mkFunc [("t", GNamed "DescribeDelegationTokenOwner41"); ("e", GPtr (GNamed "Encoder")); ("version", GInt I16)] []
  [SExpr (EMethod (EVar "e") "PutString" [(EField (EVar "t") "PrincipalType")]);
   SExpr (EMethod (EVar "e") "PutString" [(EField (EVar "t") "PrincipalName")])].
(** message/messages.gen.go:10285 *)
Definition go_DescribeDelegationTokenOwner41_Decode : func := mkFunc [("t", GPtr (GNamed "DescribeDelegationTokenOwner41")); ("d", GPtr (GNamed "Decoder")); ("version", GInt I16)] [GNamed "error"]
  [SVar "err" (Some (GNamed "error")) None;
   SAssign [(EField (EVar "t") "PrincipalType"); (EVar "err")] [(EMethod (EVar "d") "String" [])];
   SIf [] (EBin Ne (EVar "err") ENil)
     [SReturn [(EVar "err")]]
     [];
   SAssign [(EField (EVar "t") "PrincipalName"); (EVar "err")] [(EMethod (EVar "d") "String" [])];
   SIf [] (EBin Ne (EVar "err") ENil)
     [SReturn [(EVar "err")]]
     [];
   SReturn [(EVar "err")]].
(** message/messages.gen.go:10306 *)
Definition go_DescribeDelegationTokenResponse_Size : func := mkFunc [("t", GNamed "DescribeDelegationTokenResponse"); ("version", GInt I16)] [GInt I32]
  [SVar "sz" (Some (GInt I32)) None;
   SOp (EVar "sz") Add (EGlobal "sizeof.Int16");
   SOp (EVar "sz") Add (EGlobal "sizeof.ArrayLength");
   SFor [SDefine ["i"] [(EBin Sub (ELen (EField (EVar "t") "Tokens")) (EInt 1))]] (EBin Ge (EVar "i") (EInt 0)) [SOp (EVar "i") Sub (EInt 1)]
     [SOp (EVar "sz") Add (EMethod (EIndex (EField (EVar "t") "Tokens") (EVar "i")) "Size" [(EVar "version")])];
   SOp (EVar "sz") Add (EGlobal "sizeof.Int32");
   SReturn [(EVar "sz")]].
(** message/messages.gen.go:10318 *)
Definition go_DescribeDelegationTokenResponse_Encode : func := mkFunc [("t", GNamed "DescribeDelegationTokenResponse"); ("e", GPtr (GNamed "Encoder")); ("version", GInt I16)] []
  [SExpr (EMethod (EVar "e") "PutInt16" [(EField (EVar "t") "ErrorCode")]);
   SDefine ["len1"] [(ELen (EField (EVar "t") "Tokens"))];
   SExpr (EMethod (EVar "e") "PutArrayLength" [(EVar "len1")]);
   SFor [SDefine ["i"] [(EInt 0)]] (EBin Lt (EVar "i") (EVar "len1")) [SOp (EVar "i") Add (EInt 1)]
     [SExpr (EMethod (EIndex (EField (EVar "t") "Tokens") (EVar "i")) "Encode" [(EVar "e"); (EVar "version")])];
   SExpr (EMethod (EVar "e") "PutInt32" [(EField (EVar "t") "ThrottleTimeMs")])].
(** message/messages.gen.go:10330 *)
Definition go_DescribeDelegationTokenResponse_Decode : func := mkFunc [("t", GPtr (GNamed "DescribeDelegationTokenResponse")); ("d", GPtr (GNamed "Decoder")); ("version", GInt I16)] [GNamed "error"]
  [SVar "err" (Some (GNamed "error")) None;
   SAssign [(EField (EVar "t") "ErrorCode"); (EVar "err")] [(EMethod (EVar "d") "Int16" [])];
   SIf [] (EBin Ne (EVar "err") ENil)
     [SReturn [(EVar "err")]]
     [];
   SIf [SDefine ["n"; "err"] [(EMethod (EVar "d") "ArrayLength" [])]] (EBin Ne (EVar "err") ENil)
     [SReturn [(EVar "err")]]
     [SIf [] (EBin Ge (EVar "n") (EInt 0))
       [SAssign [(EField (EVar "t") "Tokens")] [(EMake (GSlice (GNamed "DescribedDelegationToken41")) (EVar "n"))];
        SFor [SDefine ["i"] [(EInt 0)]] (EBin Lt (EVar "i") (EVar "n")) [SOp (EVar "i") Add (EInt 1)]
         [SVar "item" (Some (GNamed "DescribedDelegationToken41")) None;
          SIf [SDefine ["err"] [(EMethod (EAddr (EVar "item")) "Decode" [(EVar "d"); (EVar "version")])]] (EBin Ne (EVar "err") ENil)
           [SReturn [(EVar "err")]]
           [];
          SAssign [(EIndex (EField (EVar "t") "Tokens") (EVar "i"))] [(EVar "item")]]]
       []];
   SAssign [(EField (EVar "t") "ThrottleTimeMs"); (EVar "err")] [(EMethod (EVar "d") "Int32" [])];
   SIf [] (EBin Ne (EVar "err") ENil)
     [SReturn [(EVar "err")]]
     [];
   SReturn [(EVar "err")]].
(** message/messages.gen.go:10368 *)
Definition go_DescribedDelegationToken41_Size : func := mkFunc [("t", GNamed "DescribedDelegationToken41"); ("version", GInt I16)] [GInt I32]
  [SVar "sz" (Some (GInt I32)) None;
   SOp (EVar "sz") Add (ECall "sizeof.String" [(EField (EVar "t") "PrincipalType")]);
   SOp (EVar "sz") Add (ECall "sizeof.String" [(EField (EVar "t") "PrincipalName")]);
   SOp (EVar "sz") Add (EGlobal "sizeof.Int64");
   SOp (EVar "sz") Add (EGlobal "sizeof.Int64");
   SOp (EVar "sz") Add (EGlobal "sizeof.Int64");
   SOp (EVar "sz") Add (ECall "sizeof.String" [(EField (EVar "t") "TokenId")]);
   SOp (EVar "sz") Add (ECall "sizeof.Bytes" [(EField (EVar "t") "Hmac")]);
   SOp (EVar "sz") Add (EGlobal "sizeof.ArrayLength");
   SFor [SDefine ["i"] [(EBin Sub (ELen (EField (EVar "t") "Renewers")) (EInt 1))]] (EBin Ge (EVar "i") (EInt 0)) [SOp (EVar "i") Sub (EInt 1)]
     [SOp (EVar "sz") Add (EMethod (EIndex (EField (EVar "t") "Renewers") (EVar "i")) "Size" [(EVar "version")])];
   SReturn [(EVar "sz")]].
(** message/messages.gen.go:10385 *)
Definition go_DescribedDelegationToken41_Encode : func := mkFunc [("t", GNamed "DescribedDelegationToken41"); ("e", GPtr (GNamed "Encoder")); ("version", GInt I16)] []
  [SExpr (EMethod (EVar "e") "PutString" [(EField (EVar "t") "PrincipalType")]);
   SExpr (EMethod (EVar "e") "PutString" [(EField (EVar "t") "PrincipalName")]);
   SExpr (EMethod (EVar "e") "PutInt64" [(EField (EVar "t") "IssueTimestamp")]);
   SExpr (EMethod (EVar "e") "PutInt64" [(EField (EVar "t") "ExpiryTimestamp")]);
   SExpr (EMethod (EVar "e") "PutInt64" [(EField (EVar "t") "MaxTimestamp")]);
   SExpr (EMethod (EVar "e") "PutString" [(EField (EVar "t") "TokenId")]);
   SExpr (EMethod (EVar "e") "PutBytes" [(EField (EVar "t") "Hmac")]);
   SDefine ["len7"] [(ELen (EField (EVar "t") "Renewers"))];
   SExpr (EMethod (EVar "e") "PutArrayLength" [(EVar "len7")]);
   SFor [SDefine ["i"] [(EInt 0)]] (EBin Lt (EVar "i") (EVar "len7")) [SOp (EVar "i") Add (EInt 1)]
     [SExpr (EMethod (EIndex (EField (EVar "t") "Renewers") (EVar "i")) "Encode" [(EVar "e"); (EVar "version")])]].
(** message/messages.gen.go:10402 *)
Definition go_DescribedDelegationToken41_Decode : func := mkFunc [("t", GPtr (GNamed "DescribedDelegationToken41")); ("d", GPtr (GNamed "Decoder")); ("version", GInt I16)] [GNamed "error"]
  [SVar "err" (Some (GNamed "error")) None;
   SAssign [(EField (EVar "t") "PrincipalType"); (EVar "err")] [(EMethod (EVar "d") "String" [])];
   SIf [] (EBin Ne (EVar "err") ENil)
     [SReturn [(EVar "err")]]
     [];
   SAssign [(EField (EVar "t") "PrincipalName"); (EVar "err")] [(EMethod (EVar "d") "String" [])];
   SIf [] (EBin Ne (EVar "err") ENil)
     [SReturn [(EVar "err")]]
     [];
   SAssign [(EField (EVar "t") "IssueTimestamp"); (EVar "err")] [(EMethod (EVar "d") "Int64" [])];
   SIf [] (EBin Ne (EVar "err") ENil)
     [SReturn [(EVar "err")]]
     [];
   SAssign [(EField (EVar "t") "ExpiryTimestamp"); (EVar "err")] [(EMethod (EVar "d") "Int64" [])];
   SIf [] (EBin Ne (EVar "err") ENil)
     [SReturn [(EVar "err")]]
     [];
   SAssign [(EField (EVar "t") "MaxTimestamp"); (EVar "err")] [(EMethod (EVar "d") "Int64" [])];
   SIf [] (EBin Ne (EVar "err") ENil)
     [SReturn [(EVar "err")]]
     [];
   SAssign [(EField (EVar "t") "TokenId"); (EVar "err")] [(EMethod (EVar "d") "String" [])];
   SIf [] (EBin Ne (EVar "err") ENil)
     [SReturn [(EVar "err")]]
     [];
   SAssign [(EField (EVar "t") "Hmac"); (EVar "err")] [(EMethod (EVar "d") "Bytes" [])];
   SIf [] (EBin Ne (EVar "err") ENil)
     [SReturn [(EVar "err")]]
     [];
   SIf [SDefine ["n"; "err"] [(EMethod (EVar "d") "ArrayLength" [])]] (EBin Ne (EVar "err") ENil)
     [SReturn [(EVar "err")]]
     [SIf [] (EBin Ge (EVar "n") (EInt 0))
       [SAssign [(EField (EVar "t") "Renewers")] [(EMake (GSlice (GNamed "DescribedDelegationTokenRenewer41")) (EVar "n"))];
        SFor [SDefine ["i"] [(EInt 0)]] (EBin Lt (EVar "i") (EVar "n")) [SOp (EVar "i") Add (EInt 1)]
         [SVar "item" (Some (GNamed "DescribedDelegationTokenRenewer41")) None;
          SIf [SDefine ["err"] [(EMethod (EAddr (EVar "item")) "Decode" [(EVar "d"); (EVar "version")])]] (EBin Ne (EVar "err") ENil)
           [SReturn [(EVar "err")]]
           [];
          SAssign [(EIndex (EField (EVar "t") "Renewers") (EVar "i"))] [(EVar "item")]]]
       []];
   SReturn [(EVar "err")]].
(** message/messages.gen.go:10454 *)
Definition go_DescribedDelegationTokenRenewer41_Size : func := mkFunc [("t", GNamed "DescribedDelegationTokenRenewer41"); ("version", GInt I16)] [GInt I32]
  [SVar "sz" (Some (GInt I32)) None;
   SOp (EVar "sz") Add (ECall "sizeof.String" [(EField (EVar "t") "PrincipalType")]);
   SOp (EVar "sz") Add (ECall "sizeof.String" [(EField (EVar "t") "PrincipalName")]);
   SReturn [(EVar "sz")]].
(** message/messages.gen.go:10462 *)
Definition go_DescribedDelegationTokenRenewer41_Encode : func := mkFunc [("t", GNamed "DescribedDelegationTokenRenewer41"); ("e", GPtr (GNamed "Encoder")); ("version", GInt I16)] []
  [SExpr (EMethod (EVar "e") "PutString" [(EField (EVar "t") "PrincipalType")]);
   SExpr (EMethod (EVar "e") "PutString" [(EField (EVar "t") "PrincipalName")])].
(** message/messages.gen.go:10468 *)
Definition go_DescribedDelegationTokenRenewer41_Decode : func := mkFunc [("t", GPtr (GNamed "DescribedDelegationTokenRenewer41")); ("d", GPtr (GNamed "Decoder")); ("version", GInt I16)] [GNamed "error"]
  [SVar "err" (Some (GNamed "error")) None;
   SAssign [(EField (EVar "t") "PrincipalType"); (EVar "err")] [(EMethod (EVar "d") "String" [])];
   SIf [] (EBin Ne (EVar "err") ENil)
     [SReturn [(EVar "err")]]
     [];
   SAssign [(EField (EVar "t") "PrincipalName"); (EVar "err")] [(EMethod (EVar "d") "String" [])];
   SIf [] (EBin Ne (EVar "err") ENil)
     [SReturn [(EVar "err")]]
     [];
   SReturn [(EVar "err")]].
(** message/messages.gen.go:10487 *)
Definition go_DeleteGroupsRequest_Size : func := mkFunc [("t", GNamed "DeleteGroupsRequest"); ("version", GInt I16)] [GInt I32]
  [SVar "sz" (Some (GInt I32)) None;
   SOp (EVar "sz") Add (ECall "sizeof.StringArray" [(EField (EVar "t") "GroupsNames")]);
   SReturn [(EVar "sz")]].
(** message/messages.gen.go:10494 *)
Definition go_DeleteGroupsRequest_Encode : func := mkFunc [("t", GNamed "DeleteGroupsRequest"); ("e", GPtr (GNamed "Encoder")); ("version", GInt I16)] []
  [SExpr (EMethod (EVar "e") "PutStringArray" [(EField (EVar "t") "GroupsNames")])].
(** message/messages.gen.go:10499 *)
Definition go_DeleteGroupsRequest_Decode : func := mkFunc [("t", GPtr (GNamed "DeleteGroupsRequest")); ("d", GPtr (GNamed "Decoder")); ("version", GInt I16)] [GNamed "error"]
  [SVar "err" (Some (GNamed "error")) None;
   SAssign [(EField (EVar "t") "GroupsNames"); (EVar "err")] [(EMethod (EVar "d") "StringArray" [])];
   SIf [] (EBin Ne (EVar "err") ENil)
     [SReturn [(EVar "err")]]
     [];
   SReturn [(EVar "err")]].
(** message/messages.gen.go:10515 *)
Definition go_DeleteGroupsResponse_Size : func := mkFunc [("t", GNamed "DeleteGroupsResponse"); ("version", GInt I16)] [GInt I32]
  [SVar "sz" (Some (GInt I32)) None;
   SOp (EVar "sz") Add (EGlobal "sizeof.Int32");
   SOp (EVar "sz") Add (EGlobal "sizeof.ArrayLength");
   SFor [SDefine ["i"] [(EBin Sub (ELen (EField (EVar "t") "Results")) (EInt 1))]] (EBin Ge (EVar "i") (EInt 0)) [SOp (EVar "i") Sub (EInt 1)]
     [SOp (EVar "sz") Add (EMethod (EIndex (EField (EVar "t") "Results") (EVar "i")) "Size" [(EVar "version")])];
   SReturn [(EVar "sz")]].
(** message/messages.gen.go:10526 *)
Definition go_DeleteGroupsResponse_Encode : func := mkFunc [("t", GNamed "DeleteGroupsResponse"); ("e", GPtr (GNamed "Encoder")); ("version", GInt I16)] []
  [SExpr (EMethod (EVar "e") "PutInt32" [(EField (EVar "t") "ThrottleTimeMs")]);
   SDefine ["len1"] [(ELen (EField (EVar "t") "Results"))];
   SExpr (EMethod (EVar "e") "PutArrayLength" [(EVar "len1")]);
   SFor [SDefine ["i"] [(EInt 0)]] (EBin Lt (EVar "i") (EVar "len1")) [SOp (EVar "i") Add (EInt 1)]
     [SExpr (EMethod (EIndex (EField (EVar "t") "Results") (EVar "i")) "Encode" [(EVar "e"); (EVar "version")])]].
(** message/messages.gen.go:10537 *)
Definition go_DeleteGroupsResponse_Decode : func := mkFunc [("t", GPtr (GNamed "DeleteGroupsResponse")); ("d", GPtr (GNamed "Decoder")); ("version", GInt I16)] [GNamed "error"]
  [SVar "err" (Some (GNamed "error")) None;
   SAssign [(EField (EVar "t") "ThrottleTimeMs"); (EVar "err")] [(EMethod (EVar "d") "Int32" [])];
   SIf [] (EBin Ne (EVar "err") ENil)
     [SReturn [(EVar "err")]]
     [];
   SIf [SDefine ["n"; "err"] [(EMethod (EVar "d") "ArrayLength" [])]] (EBin Ne (EVar "err") ENil)
     [SReturn [(EVar "err")]]
     [SIf [] (EBin Ge (EVar "n") (EInt 0))
       [SAssign [(EField (EVar "t") "Results")] [(EMake (GSlice (GNamed "DeletableGroupResult42")) (EVar "n"))];
        SFor [SDefine ["i"] [(EInt 0)]] (EBin Lt (EVar "i") (EVar "n")) [SOp (EVar "i") Add (EInt 1)]
         [SVar "item" (Some (GNamed "DeletableGroupResult42")) None;
          SIf [SDefine ["err"] [(EMethod (EAddr (EVar "item")) "Decode" [(EVar "d"); (EVar "version")])]] (EBin Ne (EVar "err") ENil)
           [SReturn [(EVar "err")]]
           [];
          SAssign [(EIndex (EField (EVar "t") "Results") (EVar "i"))] [(EVar "item")]]]
       []];
   SReturn [(EVar "err")]].
(** message/messages.gen.go:10565 *)
Definition go_DeletableGroupResult42_Size : func := mkFunc [("t", GNamed "DeletableGroupResult42"); ("version", GInt I16)] [GInt I32]
  [SVar "sz" (Some (GInt I32)) None;
   SOp (EVar "sz") Add (ECall "sizeof.String" [(EField (EVar "t") "GroupId")]);
   SOp (EVar "sz") Add (EGlobal "sizeof.Int16");
   SReturn [(EVar "sz")]].
(** message/messages.gen.go:10573 *)
Definition go_DeletableGroupResult42_Encode : func := mkFunc [("t", GNamed "DeletableGroupResult42"); ("e", GPtr (GNamed "Encoder")); ("version", GInt I16)] []
  [SExpr (EMethod (EVar "e") "PutString" [(EField (EVar "t") "GroupId")]);
   SExpr (EMethod (EVar "e") "PutInt16" [(EField (EVar "t") "ErrorCode")])].
(** message/messages.gen.go:10579 *)
Definition go_DeletableGroupResult42_Decode : func := mkFunc [("t", GPtr (GNamed "DeletableGroupResult42")); ("d", GPtr (GNamed "Decoder")); ("version", GInt I16)] [GNamed "error"]
  [SVar "err" (Some (GNamed "error")) None;
   SAssign [(EField (EVar "t") "GroupId"); (EVar "err")] [(EMethod (EVar "d") "String" [])];
   SIf [] (EBin Ne (EVar "err") ENil)
     [SReturn [(EVar "err")]]
     [];
   SAssign [(EField (EVar "t") "ErrorCode"); (EVar "err")] [(EMethod (EVar "d") "Int16" [])];
   SIf [] (EBin Ne (EVar "err") ENil)
     [SReturn [(EVar "err")]]
     [];
   SReturn [(EVar "err")]].
(** message/messages.gen.go:10600 *)
Definition go_ElectLeadersRequest_Size : func := mkFunc [("t", GNamed "ElectLeadersRequest"); ("version", GInt I16)] [GInt I32]
  [SVar "sz" (Some (GInt I32)) None;
   SIf [] (EBin Ge (EVar "version") (EInt 1))
     [SOp (EVar "sz") Add (EGlobal "sizeof.Int8")]
     [];
   SOp (EVar "sz") Add (EGlobal "sizeof.ArrayLength");
   SFor [SDefine ["i"] [(EBin Sub (ELen (EField (EVar "t") "TopicPartitions")) (EInt 1))]] (EBin Ge (EVar "i") (EInt 0)) [SOp (EVar "i") Sub (EInt 1)]
     [SOp (EVar "sz") Add (EMethod (EIndex (EField (EVar "t") "TopicPartitions") (EVar "i")) "Size" [(EVar "version")])];
   SOp (EVar "sz") Add (EGlobal "sizeof.Int32");
   SReturn [(EVar "sz")]].
(** message/messages.gen.go:10614 *)
Definition go_ElectLeadersRequest_Encode : func := mkFunc [("t", GNamed "ElectLeadersRequest"); ("e", GPtr (GNamed "Encoder")); ("version", GInt I16)] []
  [SIf [] (EBin Ge (EVar "version") (EInt 1))
     [SExpr (EMethod (EVar "e") "PutInt8" [(EField (EVar "t") "ElectionType")])]
     [];
   SDefine ["len1"] [(ELen (EField (EVar "t") "TopicPartitions"))];
   SExpr (EMethod (EVar "e") "PutArrayLength" [(EVar "len1")]);
   SFor [SDefine ["i"] [(EInt 0)]] (EBin Lt (EVar "i") (EVar "len1")) [SOp (EVar "i") Add (EInt 1)]
     [SExpr (EMethod (EIndex (EField (EVar "t") "TopicPartitions") (EVar "i")) "Encode" [(EVar "e"); (EVar "version")])];
   SExpr (EMethod (EVar "e") "PutInt32" [(EField (EVar "t") "TimeoutMs")])].
(** message/messages.gen.go:10628 *)
Definition go_ElectLeadersRequest_Decode : func := mkFunc [("t", GPtr (GNamed "ElectLeadersRequest")); ("d", GPtr (GNamed "Decoder")); ("version", GInt I16)] [GNamed "error"]
  [SVar "err" (Some (GNamed "error")) None;
   SIf [] (EBin Ge (EVar "version") (EInt 1))
     [SAssign [(EField (EVar "t") "ElectionType"); (EVar "err")] [(EMethod (EVar "d") "Int8" [])];
      SIf [] (EBin Ne (EVar "err") ENil)
       [SReturn [(EVar "err")]]
       []]
     [];
   SIf [SDefine ["n"; "err"] [(EMethod (EVar "d") "ArrayLength" [])]] (EBin Ne (EVar "err") ENil)
     [SReturn [(EVar "err")]]
     [SIf [] (EBin Ge (EVar "n") (EInt 0))
       [SAssign [(EField (EVar "t") "TopicPartitions")] [(EMake (GSlice (GNamed "TopicPartitions43")) (EVar "n"))];
        SFor [SDefine ["i"] [(EInt 0)]] (EBin Lt (EVar "i") (EVar "n")) [SOp (EVar "i") Add (EInt 1)]
         [SVar "item" (Some (GNamed "TopicPartitions43")) None;
          SIf [SDefine ["err"] [(EMethod (EAddr (EVar "item")) "Decode" [(EVar "d"); (EVar "version")])]] (EBin Ne (EVar "err") ENil)
           [SReturn [(EVar "err")]]
           [];
          SAssign [(EIndex (EField (EVar "t") "TopicPartitions") (EVar "i"))] [(EVar "item")]]]
       []];
   SAssign [(EField (EVar "t") "TimeoutMs"); (EVar "err")] [(EMethod (EVar "d") "Int32" [])];
   SIf [] (EBin Ne (EVar "err") ENil)
     [SReturn [(EVar "err")]]
     [];
   SReturn [(EVar "err")]].
(** message/messages.gen.go:10662 *)
Definition go_TopicPartitions43_Size : func := mkFunc [("t", GNamed "TopicPartitions43"); ("version", GInt I16)] [GInt I32]
  [SVar "sz" (Some (GInt I32)) None;
   SOp (EVar "sz") Add (ECall "sizeof.String" [(EField (EVar "t") "Topic")]);
   SOp (EVar "sz") Add (ECall "sizeof.Int32Array" [(EField (EVar "t") "PartitionId")]);
   SReturn [(EVar "sz")]].
(** message/messages.gen.go:10670 *)
Definition go_TopicPartitions43_Encode : func := mkFunc [("t", GNamed "TopicPartitions43"); ("e", GPtr (GNamed "Encoder")); ("version", GInt I16)] []
  [SExpr (EMethod (EVar "e") "PutString" [(EField (EVar "t") "Topic")]);
   SExpr (EMethod (EVar "e") "PutInt32Array" [(EField (EVar "t") "PartitionId")])].
(** message/messages.gen.go:10676 *)
Definition go_TopicPartitions43_Decode : func := mkFunc [("t", GPtr (GNamed "TopicPartitions43")); ("d", GPtr (GNamed "Decoder")); ("version", GInt I16)] [GNamed "error"]
  [SVar "err" (Some (GNamed "error")) None;
   SAssign [(EField (EVar "t") "Topic"); (EVar "err")] [(EMethod (EVar "d") "String" [])];
   SIf [] (EBin Ne (EVar "err") ENil)
     [SReturn [(EVar "err")]]
     [];
   SAssign [(EField (EVar "t") "PartitionId"); (EVar "err")] [(EMethod (EVar "d") "Int32Array" [])];
   SIf [] (EBin Ne (EVar "err") ENil)
     [SReturn [(EVar "err")]]
     [];
   SReturn [(EVar "err")]].
(** message/messages.gen.go:10697 *)
Definition go_ElectLeadersResponse_Size : func := mkFunc [("t", GNamed "ElectLeadersResponse"); ("version", GInt I16)] [GInt I32]
  [SVar "sz" (Some (GInt I32)) None;
   SOp (EVar "sz") Add (EGlobal "sizeof.Int32");
   SIf [] (EBin Ge (EVar "version") (EInt 1))
     [SOp (EVar "sz") Add (EGlobal "sizeof.Int16")]
     [];
   SOp (EVar "sz") Add (EGlobal "sizeof.ArrayLength");
   SFor [SDefine ["i"] [(EBin Sub (ELen (EField (EVar "t") "ReplicaElectionResults")) (EInt 1))]] (EBin Ge (EVar "i") (EInt 0)) [SOp (EVar "i") Sub (EInt 1)]
     [SOp (EVar "sz") Add (EMethod (EIndex (EField (EVar "t") "ReplicaElectionResults") (EVar "i")) "Size" [(EVar "version")])];
   SReturn [(EVar "sz")]].
(** message/messages.gen.go:10711 *)
Definition go_ElectLeadersResponse_Encode : func := mkFunc [("t", GNamed "ElectLeadersResponse"); ("e", GPtr (GNamed "Encoder")); ("version", GInt I16)] []
  [SExpr (EMethod (EVar "e") "PutInt32" [(EField (EVar "t") "ThrottleTimeMs")]);
   SIf [] (EBin Ge (EVar "version") (EInt 1))
     [SExpr (EMethod (EVar "e") "PutInt16" [(EField (EVar "t") "ErrorCode")])]
     [];
   SDefine ["len2"] [(ELen (EField (EVar "t") "ReplicaElectionResults"))];
   SExpr (EMethod (EVar "e") "PutArrayLength" [(EVar "len2")]);
   SFor [SDefine ["i"] [(EInt 0)]] (EBin Lt (EVar "i") (EVar "len2")) [SOp (EVar "i") Add (EInt 1)]
     [SExpr (EMethod (EIndex (EField (EVar "t") "ReplicaElectionResults") (EVar "i")) "Encode" [(EVar "e"); (EVar "version")])]].
(** message/messages.gen.go:10725 *)
Definition go_ElectLeadersResponse_Decode : func := mkFunc [("t", GPtr (GNamed "ElectLeadersResponse")); ("d", GPtr (GNamed "Decoder")); ("version", GInt I16)] [GNamed "error"]
  [SVar "err" (Some (GNamed "error")) None;
   SAssign [(EField (EVar "t") "ThrottleTimeMs"); (EVar "err")] [(EMethod (EVar "d") "Int32" [])];
   SIf [] (EBin Ne (EVar "err") ENil)
     [SReturn [(EVar "err")]]
     [];
   SIf [] (EBin Ge (EVar "version") (EInt 1))
     [SAssign [(EField (EVar "t") "ErrorCode"); (EVar "err")] [(EMethod (EVar "d") "Int16" [])];
      SIf [] (EBin Ne (EVar "err") ENil)
       [SReturn [(EVar "err")]]
       []]
     [];
   SIf [SDefine ["n"; "err"] [(EMethod (EVar "d") "ArrayLength" [])]] (EBin Ne (EVar "err") ENil)
     [SReturn [(EVar "err")]]
     [SIf [] (EBin Ge (EVar "n") (EInt 0))
       [SAssign [(EField (EVar "t") "ReplicaElectionResults")] [(EMake (GSlice (GNamed "ReplicaElectionResult43")) (EVar "n"))];
        SFor [SDefine ["i"] [(EInt 0)]] (EBin Lt (EVar "i") (EVar "n")) [SOp (EVar "i") Add (EInt 1)]
         [SVar "item" (Some (GNamed "ReplicaElectionResult43")) None;
          SIf [SDefine ["err"] [(EMethod (EAddr (EVar "item")) "Decode" [(EVar "d"); (EVar "version")])]] (EBin Ne (EVar "err") ENil)
           [SReturn [(EVar "err")]]
           [];
          SAssign [(EIndex (EField (EVar "t") "ReplicaElectionResults") (EVar "i"))] [(EVar "item")]]]
       []];
   SReturn [(EVar "err")]].
(** message/messages.gen.go:10759 *)
Definition go_ReplicaElectionResult43_Size : func := mkFunc [("t", GNamed "ReplicaElectionResult43"); ("version", GInt I16)] [GInt I32]
  [SVar "sz" (Some (GInt I32)) None;
   SOp (EVar "sz") Add (ECall "sizeof.String" [(EField (EVar "t") "Topic")]);
   SOp (EVar "sz") Add (EGlobal "sizeof.ArrayLength");
   SFor [SDefine ["i"] [(EBin Sub (ELen (EField (EVar "t") "PartitionResult")) (EInt 1))]] (EBin Ge (EVar "i") (EInt 0)) [SOp (EVar "i") Sub (EInt 1)]
     [SOp (EVar "sz") Add (EMethod (EIndex (EField (EVar "t") "PartitionResult") (EVar "i")) "Size" [(EVar "version")])];
   SReturn [(EVar "sz")]].
(** message/messages.gen.go:10770 *)
Definition go_ReplicaElectionResult43_Encode : func := mkFunc [("t", GNamed "ReplicaElectionResult43"); ("e", GPtr (GNamed "Encoder")); ("version", GInt I16)] []
  [SExpr (EMethod (EVar "e") "PutString" [(EField (EVar "t") "Topic")]);
   SDefine ["len1"] [(ELen (EField (EVar "t") "PartitionResult"))];
   SExpr (EMethod (EVar "e") "PutArrayLength" [(EVar "len1")]);
   SFor [SDefine ["i"] [(EInt 0)]] (EBin Lt (EVar "i") (EVar "len1")) [SOp (EVar "i") Add (EInt 1)]
     [SExpr (EMethod (EIndex (EField (EVar "t") "PartitionResult") (EVar "i")) "Encode" [(EVar "e"); (EVar "version")])]].
(** message/messages.gen.go:10781 *)
Definition go_ReplicaElectionResult43_Decode : func := mkFunc [("t", GPtr (GNamed "ReplicaElectionResult43")); ("d", GPtr (GNamed "Decoder")); ("version", GInt I16)] [GNamed "error"]
  [SVar "err" (Some (GNamed "error")) None;
   SAssign [(EField (EVar "t") "Topic"); (EVar "err")] [(EMethod (EVar "d") "String" [])];
   SIf [] (EBin Ne (EVar "err") ENil)
     [SReturn [(EVar "err")]]
     [];
   SIf [SDefine ["n"; "err"] [(EMethod (EVar "d") "ArrayLength" [])]] (EBin Ne (EVar "err") ENil)
     [SReturn [(EVar "err")]]
     [SIf [] (EBin Ge (EVar "n") (EInt 0))
       [SAssign [(EField (EVar "t") "PartitionResult")] [(EMake (GSlice (GNamed "PartitionResult43")) (EVar "n"))];
        SFor [SDefine ["i"] [(EInt 0)]] (EBin Lt (EVar "i") (EVar "n")) [SOp (EVar "i") Add (EInt 1)]
         [SVar "item" (Some (GNamed "PartitionResult43")) None;
          SIf [SDefine ["err"] [(EMethod (EAddr (EVar "item")) "Decode" [(EVar "d"); (EVar "version")])]] (EBin Ne (EVar "err") ENil)
           [SReturn [(EVar "err")]]
           [];
          SAssign [(EIndex (EField (EVar "t") "PartitionResult") (EVar "i"))] [(EVar "item")]]]
       []];
   SReturn [(EVar "err")]].
(** message/messages.gen.go:10810 *)
Definition go_PartitionResult43_Size : func := mkFunc [("t", GNamed "PartitionResult43"); ("version", GInt I16)] [GInt I32]
  [SVar "sz" (Some (GInt I32)) None;
   SOp (EVar "sz") Add (EGlobal "sizeof.Int32");
   SOp (EVar "sz") Add (EGlobal "sizeof.Int16");
   SOp (EVar "sz") Add (ECall "sizeof.String" [(EField (EVar "t") "ErrorMessage")]);
   SReturn [(EVar "sz")]].
(** message/messages.gen.go:10819 *)
Definition go_PartitionResult43_Encode : func := mkFunc [("t", GNamed "PartitionResult43"); ("e", GPtr (GNamed "Encoder")); ("version", GInt I16)] []
  [SExpr (EMethod (EVar "e") "PutInt32" [(EField (EVar "t") "PartitionId")]);
   SExpr (EMethod (EVar "e") "PutInt16" [(EField (EVar "t") "ErrorCode")]);
   SExpr (EMethod (EVar "e") "PutString" [(EField (EVar "t") "ErrorMessage")])].
(** message/messages.gen.go:10826 *)
Definition go_PartitionResult43_Decode : func := mkFunc [("t", GPtr (GNamed "PartitionResult43")); ("d", GPtr (GNamed "Decoder")); ("version", GInt I16)] [GNamed "error"]
  [SVar "err" (Some (GNamed "error")) None;
   SAssign [(EField (EVar "t") "PartitionId"); (EVar "err")] [(EMethod (EVar "d") "Int32" [])];
   SIf [] (EBin Ne (EVar "err") ENil)
     [SReturn [(EVar "err")]]
     [];
   SAssign [(EField (EVar "t") "ErrorCode"); (EVar "err")] [(EMethod (EVar "d") "Int16" [])];
   SIf [] (EBin Ne (EVar "err") ENil)
     [SReturn [(EVar "err")]]
     [];
   SAssign [(EField (EVar "t") "ErrorMessage"); (EVar "err")] [(EMethod (EVar "d") "String" [])];
   SIf [] (EBin Ne (EVar "err") ENil)
     [SReturn [(EVar "err")]]
     [];
   SReturn [(EVar "err")]].
(** message/messages.gen.go:10850 *)
Definition go_IncrementalAlterConfigsRequest_Size : func := mkFunc [("t", GNamed "IncrementalAlterConfigsRequest"); ("version", GInt I16)] [GInt I32]
  [SVar "sz" (Some (GInt I32)) None;
   SOp (EVar "sz") Add (EGlobal "sizeof.ArrayLength");
   SFor [SDefine ["i"] [(EBin Sub (ELen (EField (EVar "t") "Resources")) (EInt 1))]] (EBin Ge (EVar "i") (EInt 0)) [SOp (EVar "i") Sub (EInt 1)]
     [SOp (EVar "sz") Add (EMethod (EIndex (EField (EVar "t") "Resources") (EVar "i")) "Size" [(EVar "version")])];
   SOp (EVar "sz") Add (EGlobal "sizeof.Bool");
   SReturn [(EVar "sz")]].
(** message/messages.gen.go:10861 *)
Definition go_IncrementalAlterConfigsRequest_Encode : func := mkFunc [("t", GNamed "IncrementalAlterConfigsRequest"); ("e", GPtr (GNamed "Encoder")); ("version", GInt I16)] []
  [SDefine ["len0"] [(ELen (EField (EVar "t") "Resources"))];
   SExpr (EMethod (EVar "e") "PutArrayLength" [(EVar "len0")]);
   SFor [SDefine ["i"] [(EInt 0)]] (EBin Lt (EVar "i") (EVar "len0")) [SOp (EVar "i") Add (EInt 1)]
     [SExpr (EMethod (EIndex (EField (EVar "t") "Resources") (EVar "i")) "Encode" [(EVar "e"); (EVar "version")])];
   SExpr (EMethod (EVar "e") "PutBool" [(EField (EVar "t") "ValidateOnly")])].
(** message/messages.gen.go:10872 *)
Definition go_IncrementalAlterConfigsRequest_Decode : func := mkFunc [("t", GPtr (GNamed "IncrementalAlterConfigsRequest")); ("d", GPtr (GNamed "Decoder")); ("version", GInt I16)] [GNamed "error"]
  [SVar "err" (Some (GNamed "error")) None;
   SIf [SDefine ["n"; "err"] [(EMethod (EVar "d") "ArrayLength" [])]] (EBin Ne (EVar "err") ENil)
     [SReturn [(EVar "err")]]
     [SIf [] (EBin Ge (EVar "n") (EInt 0))
       [SAssign [(EField (EVar "t") "Resources")] [(EMake (GSlice (GNamed "AlterConfigsResource44")) (EVar "n"))];
        SFor [SDefine ["i"] [(EInt 0)]] (EBin Lt (EVar "i") (EVar "n")) [SOp (EVar "i") Add (EInt 1)]
         [SVar "item" (Some (GNamed "AlterConfigsResource44")) None;
          SIf [SDefine ["err"] [(EMethod (EAddr (EVar "item")) "Decode" [(EVar "d"); (EVar "version")])]] (EBin Ne (EVar "err") ENil)
           [SReturn [(EVar "err")]]
           [];
          SAssign [(EIndex (EField (EVar "t") "Resources") (EVar "i"))] [(EVar "item")]]]
       []];
   SAssign [(EField (EVar "t") "ValidateOnly"); (EVar "err")] [(EMethod (EVar "d") "Bool" [])];
   SIf [] (EBin Ne (EVar "err") ENil)
     [SReturn [(EVar "err")]]
     [];
   SReturn [(EVar "err")]].
(** message/messages.gen.go:10901 *)
Definition go_AlterConfigsResource44_Size : func := mkFunc [("t", GNamed "AlterConfigsResource44"); ("version", GInt I16)] [GInt I32]
  [SVar "sz" (Some (GInt I32)) None;
   SOp (EVar "sz") Add (EGlobal "sizeof.Int8");
   SOp (EVar "sz") Add (ECall "sizeof.String" [(EField (EVar "t") "ResourceName")]);
   SOp (EVar "sz") Add (EGlobal "sizeof.ArrayLength");
   SFor [SDefine ["i"] [(EBin Sub (ELen (EField (EVar "t") "Configs")) (EInt 1))]] (EBin Ge (EVar "i") (EInt 0)) [SOp (EVar "i") Sub (EInt 1)]
     [SOp (EVar "sz") Add (EMethod (EIndex (EField (EVar "t") "Configs") (EVar "i")) "Size" [(EVar "version")])];
   SReturn [(EVar "sz")]].
(** message/messages.gen.go:10913 *)
Definition go_AlterConfigsResource44_Encode : func := mkFunc [("t", GNamed "AlterConfigsResource44"); ("e", GPtr (GNamed "Encoder")); ("version", GInt I16)] []
  [SExpr (EMethod (EVar "e") "PutInt8" [(EField (EVar "t") "ResourceType")]);
   SExpr (EMethod (EVar "e") "PutString" [(EField (EVar "t") "ResourceName")]);
   SDefine ["len2"] [(ELen (EField (EVar "t") "Configs"))];
   SExpr (EMethod (EVar "e") "PutArrayLength" [(EVar "len2")]);
   SFor [SDefine ["i"] [(EInt 0)]] (EBin Lt (EVar "i") (EVar "len2")) [SOp (EVar "i") Add (EInt 1)]
     [SExpr (EMethod (EIndex (EField (EVar "t") "Configs") (EVar "i")) "Encode" [(EVar "e"); (EVar "version")])]].
(** message/messages.gen.go:10925 *)
Definition go_AlterConfigsResource44_Decode : func := mkFunc [("t", GPtr (GNamed "AlterConfigsResource44")); ("d", GPtr (GNamed "Decoder")); ("version", GInt I16)] [GNamed "error"]
  [SVar "err" (Some (GNamed "error")) None;
   SAssign [(EField (EVar "t") "ResourceType"); (EVar "err")] [(EMethod (EVar "d") "Int8" [])];
   SIf [] (EBin Ne (EVar "err") ENil)
     [SReturn [(EVar "err")]]
     [];
   SAssign [(EField (EVar "t") "ResourceName"); (EVar "err")] [(EMethod (EVar "d") "String" [])];
   SIf [] (EBin Ne (EVar "err") ENil)
     [SReturn [(EVar "err")]]
     [];
   SIf [SDefine ["n"; "err"] [(EMethod (EVar "d") "ArrayLength" [])]] (EBin Ne (EVar "err") ENil)
     [SReturn [(EVar "err")]]
     [SIf [] (EBin Ge (EVar "n") (EInt 0))
       [SAssign [(EField (EVar "t") "Configs")] [(EMake (GSlice (GNamed "AlterableConfig44")) (EVar "n"))];
        SFor [SDefine ["i"] [(EInt 0)]] (EBin Lt (EVar "i") (EVar "n")) [SOp (EVar "i") Add (EInt 1)]
         [SVar "item" (Some (GNamed "AlterableConfig44")) None;
          SIf [SDefine ["err"] [(EMethod (EAddr (EVar "item")) "Decode" [(EVar "d"); (EVar "version")])]] (EBin Ne (EVar "err") ENil)
           [SReturn [(EVar "err")]]
           [];
          SAssign [(EIndex (EField (EVar "t") "Configs") (EVar "i"))] [(EVar "item")]]]
       []];
   SReturn [(EVar "err")]].
(** message/messages.gen.go:10958 *)
Definition go_AlterableConfig44_Size : func := mkFunc [("t", GNamed "AlterableConfig44"); ("version", GInt I16)] [GInt I32]
  [SVar "sz" (Some (GInt I32)) None;
   SOp (EVar "sz") Add (ECall "sizeof.String" [(EField (EVar "t") "Name")]);
   SOp (EVar "sz") Add (EGlobal "sizeof.Int8");
   SOp (EVar "sz") Add (ECall "sizeof.String" [(EField (EVar "t") "Value")]);
   SReturn [(EVar "sz")]].
(** message/messages.gen.go:10967 *)
Definition go_AlterableConfig44_Encode : func := mkFunc [("t", GNamed "AlterableConfig44"); ("e", GPtr (GNamed "Encoder")); ("version", GInt I16)] []
  [SExpr (EMethod (EVar "e") "PutString" [(EField (EVar "t") "Name")]);
   SExpr (EMethod (EVar "e") "PutInt8" [(EField (EVar "t") "ConfigOperation")]);
   SExpr (EMethod (EVar "e") "PutString" [(EField (EVar "t") "Value")])].
(** message/messages.gen.go:10974 *)
Definition go_AlterableConfig44_Decode : func := mkFunc [("t", GPtr (GNamed "AlterableConfig44")); ("d", GPtr (GNamed "Decoder")); ("version", GInt I16)] [GNamed "error"]
  [SVar "err" (Some (GNamed "error")) None;
   SAssign [(EField (EVar "t") "Name"); (EVar "err")] [(EMethod (EVar "d") "String" [])];
   SIf [] (EBin Ne (EVar "err") ENil)
     [SReturn [(EVar "err")]]
     [];
   SAssign [(EField (EVar "t") "ConfigOperation"); (EVar "err")] [(EMethod (EVar "d") "Int8" [])];
   SIf [] (EBin Ne (EVar "err") ENil)
     [SReturn [(EVar "err")]]
     [];
   SAssign [(EField (EVar "t") "Value"); (EVar "err")] [(EMethod (EVar "d") "String" [])];
   SIf [] (EBin Ne (EVar "err") ENil)
     [SReturn [(EVar "err")]]
     [];
   SReturn [(EVar "err")]].
(** message/messages.gen.go:10998 *)
Definition go_IncrementalAlterConfigsResponse_Size : func := mkFunc [("t", GNamed "IncrementalAlterConfigsResponse"); ("version", GInt I16)] [GInt I32]
  [SVar "sz" (Some (GInt I32)) None;
   SOp (EVar "sz") Add (EGlobal "sizeof.Int32");
   SOp (EVar "sz") Add (EGlobal "sizeof.ArrayLength");
   SFor [SDefine ["i"] [(EBin Sub (ELen (EField (EVar "t") "Responses")) (EInt 1))]] (EBin Ge (EVar "i") (EInt 0)) [SOp (EVar "i") Sub (EInt 1)]
     [SOp (EVar "sz") Add (EMethod (EIndex (EField (EVar "t") "Responses") (EVar "i")) "Size" [(EVar "version")])];
   SReturn [(EVar "sz")]].
(** message/messages.gen.go:11009 *)
Definition go_IncrementalAlterConfigsResponse_Encode : func := mkFunc [("t", GNamed "IncrementalAlterConfigsResponse"); ("e", GPtr (GNamed "Encoder")); ("version", GInt I16)] []
  [SExpr (EMethod (EVar "e") "PutInt32" [(EField (EVar "t") "ThrottleTimeMs")]);
   SDefine ["len1"] [(ELen (EField (EVar "t") "Responses"))];
   SExpr (EMethod (EVar "e") "PutArrayLength" [(EVar "len1")]);
   SFor [SDefine ["i"] [(EInt 0)]] (EBin Lt (EVar "i") (EVar "len1")) [SOp (EVar "i") Add (EInt 1)]
     [SExpr (EMethod (EIndex (EField (EVar "t") "Responses") (EVar "i")) "Encode" [(EVar "e"); (EVar "version")])]].
(** message/messages.gen.go:11020 *)
Definition go_IncrementalAlterConfigsResponse_Decode : func := mkFunc [("t", GPtr (GNamed "IncrementalAlterConfigsResponse")); ("d", GPtr (GNamed "Decoder")); ("version", GInt I16)] [GNamed "error"]
  [SVar "err" (Some (GNamed "error")) None;
   SAssign [(EField (EVar "t") "ThrottleTimeMs"); (EVar "err")] [(EMethod (EVar "d") "Int32" [])];
   SIf [] (EBin Ne (EVar "err") ENil)
     [SReturn [(EVar "err")]]
     [];
   SIf [SDefine ["n"; "err"] [(EMethod (EVar "d") "ArrayLength" [])]] (EBin Ne (EVar "err") ENil)
     [SReturn [(EVar "err")]]
     [SIf [] (EBin Ge (EVar "n") (EInt 0))
       [SAssign [(EField (EVar "t") "Responses")] [(EMake (GSlice (GNamed "AlterConfigsResourceResponse44")) (EVar "n"))];
        SFor [SDefine ["i"] [(EInt 0)]] (EBin Lt (EVar "i") (EVar "n")) [SOp (EVar "i") Add (EInt 1)]
         [SVar "item" (Some (GNamed "AlterConfigsResourceResponse44")) None;
          SIf [SDefine ["err"] [(EMethod (EAddr (EVar "item")) "Decode" [(EVar "d"); (EVar "version")])]] (EBin Ne (EVar "err") ENil)
           [SReturn [(EVar "err")]]
           [];
          SAssign [(EIndex (EField (EVar "t") "Responses") (EVar "i"))] [(EVar "item")]]]
       []];
   SReturn [(EVar "err")]].
(** message/messages.gen.go:11050 *)
Definition go_AlterConfigsResourceResponse44_Size : func := mkFunc [("t", GNamed "AlterConfigsResourceResponse44"); ("version", GInt I16)] [GInt I32]
  [SVar "sz" (Some (GInt I32)) None;
   SOp (EVar "sz") Add (EGlobal "sizeof.Int16");
   SOp (EVar "sz") Add (ECall "sizeof.String" [(EField (EVar "t") "ErrorMessage")]);
   SOp (EVar "sz") Add (EGlobal "sizeof.Int8");
   SOp (EVar "sz") Add (ECall "sizeof.String" [(EField (EVar "t") "ResourceName")]);
   SReturn [(EVar "sz")]].
(** message/messages.gen.go:11060 *)
Definition go_AlterConfigsResourceResponse44_Encode : func := mkFunc [("t", GNamed "AlterConfigsResourceResponse44"); ("e", GPtr (GNamed "Encoder")); ("version", GInt I16)] []
  [SExpr (EMethod (EVar "e") "PutInt16" [(EField (EVar "t") "ErrorCode")]);
   SExpr (EMethod (EVar "e") "PutString" [(EField (EVar "t") "ErrorMessage")]);
   SExpr (EMethod (EVar "e") "PutInt8" [(EField (EVar "t") "ResourceType")]);
   SExpr (EMethod (EVar "e") "PutString" [(EField (EVar "t") "ResourceName")])].
(** message/messages.gen.go:11068 *)
Definition go_AlterConfigsResourceResponse44_Decode : func := mkFunc [("t", GPtr (GNamed "AlterConfigsResourceResponse44")); ("d", GPtr (GNamed "Decoder")); ("version", GInt I16)] [GNamed "error"]
  [SVar "err" (Some (GNamed "error")) None;
   SAssign [(EField (EVar "t") "ErrorCode"); (EVar "err")] [(EMethod (EVar "d") "Int16" [])];
   SIf [] (EBin Ne (EVar "err") ENil)
     [SReturn [(EVar "err")]]
     [];
   SAssign [(EField (EVar "t") "ErrorMessage"); (EVar "err")] [(EMethod (EVar "d") "String" [])];
   SIf [] (EBin Ne (EVar "err") ENil)
     [SReturn [(EVar "err")]]
     [];
   SAssign [(EField (EVar "t") "ResourceType"); (EVar "err")] [(EMethod (EVar "d") "Int8" [])];
   SIf [] (EBin Ne (EVar "err") ENil)
     [SReturn [(EVar "err")]]
     [];
   SAssign [(EField (EVar "t") "ResourceName"); (EVar "err")] [(EMethod (EVar "d") "String" [])];
   SIf [] (EBin Ne (EVar "err") ENil)
     [SReturn [(EVar "err")]]
     [];
   SReturn [(EVar "err")]].
(** message/messages.gen.go:11096 *)
Definition go_AlterPartitionReassignmentsRequest_Size : func := mkFunc [("t", GNamed "AlterPartitionReassignmentsRequest"); ("version", GInt I16)] [GInt I32]
  [SVar "sz" (Some (GInt I32)) None;
   SOp (EVar "sz") Add (EGlobal "sizeof.Int32");
   SOp (EVar "sz") Add (EGlobal "sizeof.ArrayLength");
   SFor [SDefine ["i"] [(EBin Sub (ELen (EField (EVar "t") "Topics")) (EInt 1))]] (EBin Ge (EVar "i") (EInt 0)) [SOp (EVar "i") Sub (EInt 1)]
     [SOp (EVar "sz") Add (EMethod (EIndex (EField (EVar "t") "Topics") (EVar "i")) "Size" [(EVar "version")])];
   SReturn [(EVar "sz")]].
(** message/messages.gen.go:11107 *)
Definition go_AlterPartitionReassignmentsRequest_Encode : func := mkFunc [("t", GNamed "AlterPartitionReassignmentsRequest"); ("e", GPtr (GNamed "Encoder")); ("version", GInt I16)] []
  [SExpr (EMethod (EVar "e") "PutInt32" [(EField (EVar "t") "TimeoutMs")]);
   SDefine ["len1"] [(ELen (EField (EVar "t") "Topics"))];
   SExpr (EMethod (EVar "e") "PutArrayLength" [(EVar "len1")]);
   SFor [SDefine ["i"] [(EInt 0)]] (EBin Lt (EVar "i") (EVar "len1")) [SOp (EVar "i") Add (EInt 1)]
     [SExpr (EMethod (EIndex (EField (EVar "t") "Topics") (EVar "i")) "Encode" [(EVar "e"); (EVar "version")])]].
(** message/messages.gen.go:11118 *)
Definition go_AlterPartitionReassignmentsRequest_Decode : func := mkFunc [("t", GPtr (GNamed "AlterPartitionReassignmentsRequest")); ("d", GPtr (GNamed "Decoder")); ("version", GInt I16)] [GNamed "error"]
  [SVar "err" (Some (GNamed "error")) None;
   SAssign [(EField (EVar "t") "TimeoutMs"); (EVar "err")] [(EMethod (EVar "d") "Int32" [])];
   SIf [] (EBin Ne (EVar "err") ENil)
     [SReturn [(EVar "err")]]
     [];
   SIf [SDefine ["n"; "err"] [(EMethod (EVar "d") "ArrayLength" [])]] (EBin Ne (EVar "err") ENil)
     [SReturn [(EVar "err")]]
     [SIf [] (EBin Ge (EVar "n") (EInt 0))
       [SAssign [(EField (EVar "t") "Topics")] [(EMake (GSlice (GNamed "ReassignableTopic45")) (EVar "n"))];
        SFor [SDefine ["i"] [(EInt 0)]] (EBin Lt (EVar "i") (EVar "n")) [SOp (EVar "i") Add (EInt 1)]
         [SVar "item" (Some (GNamed "ReassignableTopic45")) None;
          SIf [SDefine ["err"] [(EMethod (EAddr (EVar "item")) "Decode" [(EVar "d"); (EVar "version")])]] (EBin Ne (EVar "err") ENil)
           [SReturn [(EVar "err")]]
           [];
          SAssign [(EIndex (EField (EVar "t") "Topics") (EVar "i"))] [(EVar "item")]]]
       []];
   SReturn [(EVar "err")]].
(** message/messages.gen.go:11146 *)
Definition go_ReassignableTopic45_Size : func := mkFunc [("t", GNamed "ReassignableTopic45"); ("version", GInt I16)] [GInt I32]
  [SVar "sz" (Some (GInt I32)) None;
   SOp (EVar "sz") Add (ECall "sizeof.String" [(EField (EVar "t") "Name")]);
   SOp (EVar "sz") Add (EGlobal "sizeof.ArrayLength");
   SFor [SDefine ["i"] [(EBin Sub (ELen (EField (EVar "t") "Partitions")) (EInt 1))]] (EBin Ge (EVar "i") (EInt 0)) [SOp (EVar "i") Sub (EInt 1)]
     [SOp (EVar "sz") Add (EMethod (EIndex (EField (EVar "t") "Partitions") (EVar "i")) "Size" [(EVar "version")])];
   SReturn [(EVar "sz")]].
(** message/messages.gen.go:11157 *)
Definition go_ReassignableTopic45_Encode : func := mkFunc [("t", GNamed "ReassignableTopic45"); ("e", GPtr (GNamed "Encoder")); ("version", GInt I16)] []
  [SExpr (EMethod (EVar "e") "PutString" [(EField (EVar "t") "Name")]);
   SDefine ["len1"] [(ELen (EField (EVar "t") "Partitions"))];
   SExpr (EMethod (EVar "e") "PutArrayLength" [(EVar "len1")]);
   SFor [SDefine ["i"] [(EInt 0)]] (EBin Lt (EVar "i") (EVar "len1")) [SOp (EVar "i") Add (EInt 1)]
     [SExpr (EMethod (EIndex (EField (EVar "t") "Partitions") (EVar "i")) "Encode" [(EVar "e"); (EVar "version")])]].
(** message/messages.gen.go:11168 *)
Definition go_ReassignableTopic45_Decode : func := mkFunc [("t", GPtr (GNamed "ReassignableTopic45")); ("d", GPtr (GNamed "Decoder")); ("version", GInt I16)] [GNamed "error"]
  [SVar "err" (Some (GNamed "error")) None;
   SAssign [(EField (EVar "t") "Name"); (EVar "err")] [(EMethod (EVar "d") "String" [])];
   SIf [] (EBin Ne (EVar "err") ENil)
     [SReturn [(EVar "err")]]
     [];
   SIf [SDefine ["n"; "err"] [(EMethod (EVar "d") "ArrayLength" [])]] (EBin Ne (EVar "err") ENil)
     [SReturn [(EVar "err")]]
     [SIf [] (EBin Ge (EVar "n") (EInt 0))
       [SAssign [(EField (EVar "t") "Partitions")] [(EMake (GSlice (GNamed "ReassignablePartition45")) (EVar "n"))];
        SFor [SDefine ["i"] [(EInt 0)]] (EBin Lt (EVar "i") (EVar "n")) [SOp (EVar "i") Add (EInt 1)]
         [SVar "item" (Some (GNamed "ReassignablePartition45")) None;
          SIf [SDefine ["err"] [(EMethod (EAddr (EVar "item")) "Decode" [(EVar "d"); (EVar "version")])]] (EBin Ne (EVar "err") ENil)
           [SReturn [(EVar "err")]]
           [];
          SAssign [(EIndex (EField (EVar "t") "Partitions") (EVar "i"))] [(EVar "item")]]]
       []];
   SReturn [(EVar "err")]].
(** message/messages.gen.go:11196 *)
Definition go_ReassignablePartition45_Size : func := mkFunc [("t", GNamed "ReassignablePartition45"); ("version", GInt I16)] [GInt I32]
  [SVar "sz" (Some (GInt I32)) None;
   SOp (EVar "sz") Add (EGlobal "sizeof.Int32");
   SOp (EVar "sz") Add (ECall "sizeof.Int32Array" [(EField (EVar "t") "Replicas")]);
   SReturn [(EVar "sz")]].
(** message/messages.gen.go:11204 *)
Definition go_ReassignablePartition45_Encode : func := mkFunc [("t", GNamed "ReassignablePartition45"); ("e", GPtr (GNamed "Encoder")); ("version", GInt I16)] []
  [SExpr (EMethod (EVar "e") "PutInt32" [(EField (EVar "t") "PartitionIndex")]);
   SExpr (EMethod (EVar "e") "PutInt32Array" [(EField (EVar "t") "Replicas")])].
(** message/messages.gen.go:11210 *)
Definition go_ReassignablePartition45_Decode : func := mkFunc [("t", GPtr (GNamed "ReassignablePartition45")); ("d", GPtr (GNamed "Decoder")); ("version", GInt I16)] [GNamed "error"]
  [SVar "err" (Some (GNamed "error")) None;
   SAssign [(EField (EVar "t") "PartitionIndex"); (EVar "err")] [(EMethod (EVar "d") "Int32" [])];
   SIf [] (EBin Ne (EVar "err") ENil)
     [SReturn [(EVar "err")]]
     [];
   SAssign [(EField (EVar "t") "Replicas"); (EVar "err")] [(EMethod (EVar "d") "Int32Array" [])];
   SIf [] (EBin Ne (EVar "err") ENil)
     [SReturn [(EVar "err")]]
     [];
   SReturn [(EVar "err")]].
(** message/messages.gen.go:11232 *)
Definition go_AlterPartitionReassignmentsResponse_Size : func := mkFunc [("t", GNamed "AlterPartitionReassignmentsResponse"); ("version", GInt I16)] [GInt I32]
  [SVar "sz" (Some (GInt I32)) None;
   SOp (EVar "sz") Add (EGlobal "sizeof.Int32");
   SOp (EVar "sz") Add (EGlobal "sizeof.Int16");
   SOp (EVar "sz") Add (ECall "sizeof.String" [(EField (EVar "t") "ErrorMessage")]);
   SOp (EVar "sz") Add (EGlobal "sizeof.ArrayLength");
   SFor [SDefine ["i"] [(EBin Sub (ELen (EField (EVar "t") "Responses")) (EInt 1))]] (EBin Ge (EVar "i") (EInt 0)) [SOp (EVar "i") Sub (EInt 1)]
     [SOp (EVar "sz") Add (EMethod (EIndex (EField (EVar "t") "Responses") (EVar "i")) "Size" [(EVar "version")])];
   SReturn [(EVar "sz")]].
(** message/messages.gen.go:11245 *)
Definition go_AlterPartitionReassignmentsResponse_Encode : func := mkFunc [("t", GNamed "AlterPartitionReassignmentsResponse"); ("e", GPtr (GNamed "Encoder")); ("version", GInt I16)] []
  [SExpr (EMethod (EVar "e") "PutInt32" [(EField (EVar "t") "ThrottleTimeMs")]);
   SExpr (EMethod (EVar "e") "PutInt16" [(EField (EVar "t") "ErrorCode")]);
   SExpr (EMethod (EVar "e") "PutString" [(EField (EVar "t") "ErrorMessage")]);
   SDefine ["len3"] [(ELen (EField (EVar "t") "Responses"))];
   SExpr (EMethod (EVar "e") "PutArrayLength" [(EVar "len3")]);
   SFor [SDefine ["i"] [(EInt 0)]] (EBin Lt (EVar "i") (EVar "len3")) [SOp (EVar "i") Add (EInt 1)]
     [SExpr (EMethod (EIndex (EField (EVar "t") "Responses") (EVar "i")) "Encode" [(EVar "e"); (EVar "version")])]].
(** message/messages.gen.go:11258 *)
Definition go_AlterPartitionReassignmentsResponse_Decode : func := mkFunc [("t", GPtr (GNamed "AlterPartitionReassignmentsResponse")); ("d", GPtr (GNamed "Decoder")); ("version", GInt I16)] [GNamed "error"]
  [SVar "err" (Some (GNamed "error")) None;
   SAssign [(EField (EVar "t") "ThrottleTimeMs"); (EVar "err")] [(EMethod (EVar "d") "Int32" [])];
   SIf [] (EBin Ne (EVar "err") ENil)
     [SReturn [(EVar "err")]]
     [];
   SAssign [(EField (EVar "t") "ErrorCode"); (EVar "err")] [(EMethod (EVar "d") "Int16" [])];
   SIf [] (EBin Ne (EVar "err") ENil)
     [SReturn [(EVar "err")]]
     [];
   SAssign [(EField (EVar "t") "ErrorMessage"); (EVar "err")] [(EMethod (EVar "d") "String" [])];
   SIf [] (EBin Ne (EVar "err") ENil)
     [SReturn [(EVar "err")]]
     [];
   SIf [SDefine ["n"; "err"] [(EMethod (EVar "d") "ArrayLength" [])]] (EBin Ne (EVar "err") ENil)
     [SReturn [(EVar "err")]]
     [SIf [] (EBin Ge (EVar "n") (EInt 0))
       [SAssign [(EField (EVar "t") "Responses")] [(EMake (GSlice (GNamed "ReassignableTopicResponse45")) (EVar "n"))];
        SFor [SDefine ["i"] [(EInt 0)]] (EBin Lt (EVar "i") (EVar "n")) [SOp (EVar "i") Add (EInt 1)]
         [SVar "item" (Some (GNamed "ReassignableTopicResponse45")) None;
          SIf [SDefine ["err"] [(EMethod (EAddr (EVar "item")) "Decode" [(EVar "d"); (EVar "version")])]] (EBin Ne (EVar "err") ENil)
           [SReturn [(EVar "err")]]
           [];
          SAssign [(EIndex (EField (EVar "t") "Responses") (EVar "i"))] [(EVar "item")]]]
       []];
   SReturn [(EVar "err")]].
(** message/messages.gen.go:11294 *)
Definition go_ReassignableTopicResponse45_Size : func := mkFunc [("t", GNamed "ReassignableTopicResponse45"); ("version", GInt I16)] [GInt I32]
  [SVar "sz" (Some (GInt I32)) None;
   SOp (EVar "sz") Add (ECall "sizeof.String" [(EField (EVar "t") "Name")]);
   SOp (EVar "sz") Add (EGlobal "sizeof.ArrayLength");
   SFor [SDefine ["i"] [(EBin Sub (ELen (EField (EVar "t") "Partitions")) (EInt 1))]] (EBin Ge (EVar "i") (EInt 0)) [SOp (EVar "i") Sub (EInt 1)]
     [SOp (EVar "sz") Add (EMethod (EIndex (EField (EVar "t") "Partitions") (EVar "i")) "Size" [(EVar "version")])];
   SReturn [(EVar "sz")]].
(** message/messages.gen.go:11305 *)
Definition go_ReassignableTopicResponse45_Encode : func := mkFunc [("t", GNamed "ReassignableTopicResponse45"); ("e", GPtr (GNamed "Encoder")); ("version", GInt I16)] []
  [SExpr (EMethod (EVar "e") "PutString" [(EField (EVar "t") "Name")]);
   SDefine ["len1"] [(ELen (EField (EVar "t") "Partitions"))];
   SExpr (EMethod (EVar "e") "PutArrayLength" [(EVar "len1")]);
   SFor [SDefine ["i"] [(EInt 0)]] (EBin Lt (EVar "i") (EVar "len1")) [SOp (EVar "i") Add (EInt 1)]
     [SExpr (EMethod (EIndex (EField (EVar "t") "Partitions") (EVar "i")) "Encode" [(EVar "e"); (EVar "version")])]].
(** message/messages.gen.go:11316 *)
Definition go_ReassignableTopicResponse45_Decode : func := mkFunc [("t", GPtr (GNamed "ReassignableTopicResponse45")); ("d", GPtr (GNamed "Decoder")); ("version", GInt I16)] [GNamed "error"]
  [SVar "err" (Some (GNamed "error")) None;
   SAssign [(EField (EVar "t") "Name"); (EVar "err")] [(EMethod (EVar "d") "String" [])];
   SIf [] (EBin Ne (EVar "err") ENil)
     [SReturn [(EVar "err")]]
     [];
   SIf [SDefine ["n"; "err"] [(EMethod (EVar "d") "ArrayLength" [])]] (EBin Ne (EVar "err") ENil)
     [SReturn [(EVar "err")]]
     [SIf [] (EBin Ge (EVar "n") (EInt 0))
       [SAssign [(EField (EVar "t") "Partitions")] [(EMake (GSlice (GNamed "ReassignablePartitionResponse45")) (EVar "n"))];
        SFor [SDefine ["i"] [(EInt 0)]] (EBin Lt (EVar "i") (EVar "n")) [SOp (EVar "i") Add (EInt 1)]
         [SVar "item" (Some (GNamed "ReassignablePartitionResponse45")) None;
          SIf [SDefine ["err"] [(EMethod (EAddr (EVar "item")) "Decode" [(EVar "d"); (EVar "version")])]] (EBin Ne (EVar "err") ENil)
           [SReturn [(EVar "err")]]
           [];
          SAssign [(EIndex (EField (EVar "t") "Partitions") (EVar "i"))] [(EVar "item")]]]
       []];
   SReturn [(EVar "err")]].
(** message/messages.gen.go:11345 *)
Definition go_ReassignablePartitionResponse45_Size : func := mkFunc [("t", GNamed "ReassignablePartitionResponse45"); ("version", GInt I16)] [GInt I32]
  [SVar "sz" (Some (GInt I32)) None;
   SOp (EVar "sz") Add (EGlobal "sizeof.Int32");
   SOp (EVar "sz") Add (EGlobal "sizeof.Int16");
   SOp (EVar "sz") Add (ECall "sizeof.String" [(EField (EVar "t") "ErrorMessage")]);
   SReturn [(EVar "sz")]].
(** message/messages.gen.go:11354 *)
Definition go_ReassignablePartitionResponse45_Encode : func := mkFunc [("t", GNamed "ReassignablePartitionResponse45"); ("e", GPtr (GNamed "Encoder")); ("version", GInt I16)] []
  [SExpr (EMethod (EVar "e") "PutInt32" [(EField (EVar "t") "PartitionIndex")]);
   SExpr (EMethod (EVar "e") "PutInt16" [(EField (EVar "t") "ErrorCode")]);
   SExpr (EMethod (EVar "e") "PutString" [(EField (EVar "t") "ErrorMessage")])].
(** message/messages.gen.go:11361 *)
Definition go_ReassignablePartitionResponse45_Decode : func := mkFunc [("t", GPtr (GNamed "ReassignablePartitionResponse45")); ("d", GPtr (GNamed "Decoder")); ("version", GInt I16)] [GNamed "error"]
  [SVar "err" (Some (GNamed "error")) None;
   SAssign [(EField (EVar "t") "PartitionIndex"); (EVar "err")] [(EMethod (EVar "d") "Int32" [])];
   SIf [] (EBin Ne (EVar "err") ENil)
     [SReturn [(EVar "err")]]
     [];
   SAssign [(EField (EVar "t") "ErrorCode"); (EVar "err")] [(EMethod (EVar "d") "Int16" [])];
   SIf [] (EBin Ne (EVar "err") ENil)
     [SReturn [(EVar "err")]]
     [];
   SAssign [(EField (EVar "t") "ErrorMessage"); (EVar "err")] [(EMethod (EVar "d") "String" [])];
   SIf [] (EBin Ne (EVar "err") ENil)
     [SReturn [(EVar "err")]]
     [];
   SReturn [(EVar "err")]].
(** message/messages.gen.go:11385 *)
Definition go_ListPartitionReassignmentsRequest_Size : func := mkFunc [("t", GNamed "ListPartitionReassignmentsRequest"); ("version", GInt I16)] [GInt I32]
  [SVar "sz" (Some (GInt I32)) None;
   SOp (EVar "sz") Add (EGlobal "sizeof.Int32");
   SOp (EVar "sz") Add (EGlobal "sizeof.ArrayLength");
   SFor [SDefine ["i"] [(EBin Sub (ELen (EField (EVar "t") "Topics")) (EInt 1))]] (EBin Ge (EVar "i") (EInt 0)) [SOp (EVar "i") Sub (EInt 1)]
     [SOp (EVar "sz") Add (EMethod (EIndex (EField (EVar "t") "Topics") (EVar "i")) "Size" [(EVar "version")])];
   SReturn [(EVar "sz")]].
(** message/messages.gen.go:11396 *)
Definition go_ListPartitionReassignmentsRequest_Encode : func := mkFunc [("t", GNamed "ListPartitionReassignmentsRequest"); ("e", GPtr (GNamed "Encoder")); ("version", GInt I16)] []
  [SExpr (EMethod (EVar "e") "PutInt32" [(EField (EVar "t") "TimeoutMs")]);
   SDefine ["len1"] [(ELen (EField (EVar "t") "Topics"))];
   SExpr (EMethod (EVar "e") "PutArrayLength" [(EVar "len1")]);
   SFor [SDefine ["i"] [(EInt 0)]] (EBin Lt (EVar "i") (EVar "len1")) [SOp (EVar "i") Add (EInt 1)]
     [SExpr (EMethod (EIndex (EField (EVar "t") "Topics") (EVar "i")) "Encode" [(EVar "e"); (EVar "version")])]].
(** message/messages.gen.go:11407 *)
Definition go_ListPartitionReassignmentsRequest_Decode : func := mkFunc [("t", GPtr (GNamed "ListPartitionReassignmentsRequest")); ("d", GPtr (GNamed "Decoder")); ("version", GInt I16)] [GNamed "error"]
  [SVar "err" (Some (GNamed "error")) None;
   SAssign [(EField (EVar "t") "TimeoutMs"); (EVar "err")] [(EMethod (EVar "d") "Int32" [])];
   SIf [] (EBin Ne (EVar "err") ENil)
     [SReturn [(EVar "err")]]
     [];
   SIf [SDefine ["n"; "err"] [(EMethod (EVar "d") "ArrayLength" [])]] (EBin Ne (EVar "err") ENil)
     [SReturn [(EVar "err")]]
     [SIf [] (EBin Ge (EVar "n") (EInt 0))
       [SAssign [(EField (EVar "t") "Topics")] [(EMake (GSlice (GNamed "ListPartitionReassignmentsTopics46")) (EVar "n"))];
        SFor [SDefine ["i"] [(EInt 0)]] (EBin Lt (EVar "i") (EVar "n")) [SOp (EVar "i") Add (EInt 1)]
         [SVar "item" (Some (GNamed "ListPartitionReassignmentsTopics46")) None;
          SIf [SDefine ["err"] [(EMethod (EAddr (EVar "item")) "Decode" [(EVar "d"); (EVar "version")])]] (EBin Ne (EVar "err") ENil)
           [SReturn [(EVar "err")]]
           [];
          SAssign [(EIndex (EField (EVar "t") "Topics") (EVar "i"))] [(EVar "item")]]]
       []];
   SReturn [(EVar "err")]].
(** message/messages.gen.go:11435 *)
Definition go_ListPartitionReassignmentsTopics46_Size : func := mkFunc [("t", GNamed "ListPartitionReassignmentsTopics46"); ("version", GInt I16)] [GInt I32]
  [SVar "sz" (Some (GInt I32)) None;
   SOp (EVar "sz") Add (ECall "sizeof.String" [(EField (EVar "t") "Name")]);
   SOp (EVar "sz") Add (ECall "sizeof.Int32Array" [(EField (EVar "t") "PartitionIndexes")]);
   SReturn [(EVar "sz")]].
(** message/messages.gen.go:11443 *)
Definition go_ListPartitionReassignmentsTopics46_Encode : func := mkFunc [("t", GNamed "ListPartitionReassignmentsTopics46"); ("e", GPtr (GNamed "Encoder")); ("version", GInt I16)] []
  [SExpr (EMethod (EVar "e") "PutString" [(EField (EVar "t") "Name")]);
   SExpr (EMethod (EVar "e") "PutInt32Array" [(EField (EVar "t") "PartitionIndexes")])].
(** message/messages.gen.go:11449 *)
Definition go_ListPartitionReassignmentsTopics46_Decode : func := mkFunc [("t", GPtr (GNamed "ListPartitionReassignmentsTopics46")); ("d", GPtr (GNamed "Decoder")); ("version", GInt I16)] [GNamed "error"]
  [SVar "err" (Some (GNamed "error")) None;
   SAssign [(EField (EVar "t") "Name"); (EVar "err")] [(EMethod (EVar "d") "String" [])];
   SIf [] (EBin Ne (EVar "err") ENil)
     [SReturn [(EVar "err")]]
     [];
   SAssign [(EField (EVar "t") "PartitionIndexes"); (EVar "err")] [(EMethod (EVar "d") "Int32Array" [])];
   SIf [] (EBin Ne (EVar "err") ENil)
     [SReturn [(EVar "err")]]
     [];
   SReturn [(EVar "err")]].
(** message/messages.gen.go:11471 *)
Definition go_ListPartitionReassignmentsResponse_Size : func := mkFunc [("t", GNamed "ListPartitionReassignmentsResponse"); ("version", GInt I16)] [GInt I32]
  [SVar "sz" (Some (GInt I32)) None;
   SOp (EVar "sz") Add (EGlobal "sizeof.Int32");
   SOp (EVar "sz") Add (EGlobal "sizeof.Int16");
   SOp (EVar "sz") Add (ECall "sizeof.String" [(EField (EVar "t") "ErrorMessage")]);
   SOp (EVar "sz") Add (EGlobal "sizeof.ArrayLength");
   SFor [SDefine ["i"] [(EBin Sub (ELen (EField (EVar "t") "Topics")) (EInt 1))]] (EBin Ge (EVar "i") (EInt 0)) [SOp (EVar "i") Sub (EInt 1)]
     [SOp (EVar "sz") Add (EMethod (EIndex (EField (EVar "t") "Topics") (EVar "i")) "Size" [(EVar "version")])];
   SReturn [(EVar "sz")]].
(** message/messages.gen.go:11484 *)
Definition go_ListPartitionReassignmentsResponse_Encode : func := mkFunc [("t", GNamed "ListPartitionReassignmentsResponse"); ("e", GPtr (GNamed "Encoder")); ("version", GInt I16)] []
  [SExpr (EMethod (EVar "e") "PutInt32" [(EField (EVar "t") "ThrottleTimeMs")]);
   SExpr (EMethod (EVar "e") "PutInt16" [(EField (EVar "t") "ErrorCode")]);
   SExpr (EMethod (EVar "e") "PutString" [(EField (EVar "t") "ErrorMessage")]);
   SDefine ["len3"] [(ELen (EField (EVar "t") "Topics"))];
   SExpr (EMethod (EVar "e") "PutArrayLength" [(EVar "len3")]);
   SFor [SDefine ["i"] [(EInt 0)]] (EBin Lt (EVar "i") (EVar "len3")) [SOp (EVar "i") Add (EInt 1)]
     [SExpr (EMethod (EIndex (EField (EVar "t") "Topics") (EVar "i")) "Encode" [(EVar "e"); (EVar "version")])]].
(** message/messages.gen.go:11497 *)
Definition go_ListPartitionReassignmentsResponse_Decode : func := mkFunc [("t", GPtr (GNamed "ListPartitionReassignmentsResponse")); ("d", GPtr (GNamed "Decoder")); ("version", GInt I16)] [GNamed "error"]
  [SVar "err" (Some (GNamed "error")) None;
   SAssign [(EField (EVar "t") "ThrottleTimeMs"); (EVar "err")] [(EMethod (EVar "d") "Int32" [])];
   SIf [] (EBin Ne (EVar "err") ENil)
     [SReturn [(EVar "err")]]
     [];
   SAssign [(EField (EVar "t") "ErrorCode"); (EVar "err")] [(EMethod (EVar "d") "Int16" [])];
   SIf [] (EBin Ne (EVar "err") ENil)
     [SReturn [(EVar "err")]]
     [];
   SAssign [(EField (EVar "t") "ErrorMessage"); (EVar "err")] [(EMethod (EVar "d") "String" [])];
   SIf [] (EBin Ne (EVar "err") ENil)
     [SReturn [(EVar "err")]]
     [];
   SIf [SDefine ["n"; "err"] [(EMethod (EVar "d") "ArrayLength" [])]] (EBin Ne (EVar "err") ENil)
     [SReturn [(EVar "err")]]
     [SIf [] (EBin Ge (EVar "n") (EInt 0))
       [SAssign [(EField (EVar "t") "Topics")] [(EMake (GSlice (GNamed "OngoingTopicReassignment46")) (EVar "n"))];
        SFor [SDefine ["i"] [(EInt 0)]] (EBin Lt (EVar "i") (EVar "n")) [SOp (EVar "i") Add (EInt 1)]
         [SVar "item" (Some (GNamed "OngoingTopicReassignment46")) None;
          SIf [SDefine ["err"] [(EMethod (EAddr (EVar "item")) "Decode" [(EVar "d"); (EVar "version")])]] (EBin Ne (EVar "err") ENil)
           [SReturn [(EVar "err")]]
           [];
          SAssign [(EIndex (EField (EVar "t") "Topics") (EVar "i"))] [(EVar "item")]]]
       []];
   SReturn [(EVar "err")]].
(** message/messages.gen.go:11533 *)
Definition go_OngoingTopicReassignment46_Size : func := mkFunc [("t", GNamed "OngoingTopicReassignment46"); ("version", GInt I16)] [GInt I32]
  [SVar "sz" (Some (GInt I32)) None;
   SOp (EVar "sz") Add (ECall "sizeof.String" [(EField (EVar "t") "Name")]);
   SOp (EVar "sz") Add (EGlobal "sizeof.ArrayLength");
   SFor [SDefine ["i"] [(EBin Sub (ELen (EField (EVar "t") "Partitions")) (EInt 1))]] (EBin Ge (EVar "i") (EInt 0)) [SOp (EVar "i") Sub (EInt 1)]
     [SOp (EVar "sz") Add (EMethod (EIndex (EField (EVar "t") "Partitions") (EVar "i")) "Size" [(EVar "version")])];
   SReturn [(EVar "sz")]].
(** message/messages.gen.go:11544 *)
Definition go_OngoingTopicReassignment46_Encode : func := mkFunc [("t", GNamed "OngoingTopicReassignment46"); ("e", GPtr (GNamed "Encoder")); ("version", GInt I16)] []
  [SExpr (EMethod (EVar "e") "PutString" [(EField (EVar "t") "Name")]);
   SDefine ["len1"] [(ELen (EField (EVar "t") "Partitions"))];
   SExpr (EMethod (EVar "e") "PutArrayLength" [(EVar "len1")]);
   SFor [SDefine ["i"] [(EInt 0)]] (EBin Lt (EVar "i") (EVar "len1")) [SOp (EVar "i") Add (EInt 1)]
     [SExpr (EMethod (EIndex (EField (EVar "t") "Partitions") (EVar "i")) "Encode" [(EVar "e"); (EVar "version")])]].
(** message/messages.gen.go:11555 *)
Definition go_OngoingTopicReassignment46_Decode : func := mkFunc [("t", GPtr (GNamed "OngoingTopicReassignment46")); ("d", GPtr (GNamed "Decoder")); ("version", GInt I16)] [GNamed "error"]
  [SVar "err" (Some (GNamed "error")) None;
   SAssign [(EField (EVar "t") "Name"); (EVar "err")] [(EMethod (EVar "d") "String" [])];
   SIf [] (EBin Ne (EVar "err") ENil)
     [SReturn [(EVar "err")]]
     [];
   SIf [SDefine ["n"; "err"] [(EMethod (EVar "d") "ArrayLength" [])]] (EBin Ne (EVar "err") ENil)
     [SReturn [(EVar "err")]]
     [SIf [] (EBin Ge (EVar "n") (EInt 0))
       [SAssign [(EField (EVar "t") "Partitions")] [(EMake (GSlice (GNamed "OngoingPartitionReassignment46")) (EVar "n"))];
        SFor [SDefine ["i"] [(EInt 0)]] (EBin Lt (EVar "i") (EVar "n")) [SOp (EVar "i") Add (EInt 1)]
         [SVar "item" (Some (GNamed "OngoingPartitionReassignment46")) None;
          SIf [SDefine ["err"] [(EMethod (EAddr (EVar "item")) "Decode" [(EVar "d"); (EVar "version")])]] (EBin Ne (EVar "err") ENil)
           [SReturn [(EVar "err")]]
           [];
          SAssign [(EIndex (EField (EVar "t") "Partitions") (EVar "i"))] [(EVar "item")]]]
       []];
   SReturn [(EVar "err")]].
(** message/messages.gen.go:11585 *)
Definition go_OngoingPartitionReassignment46_Size : func := mkFunc [("t", GNamed "OngoingPartitionReassignment46"); ("version", GInt I16)] [GInt I32]
  [SVar "sz" (Some (GInt I32)) None;
   SOp (EVar "sz") Add (EGlobal "sizeof.Int32");
   SOp (EVar "sz") Add (ECall "sizeof.Int32Array" [(EField (EVar "t") "Replicas")]);
   SOp (EVar "sz") Add (ECall "sizeof.Int32Array" [(EField (EVar "t") "AddingReplicas")]);
   SOp (EVar "sz") Add (ECall "sizeof.Int32Array" [(EField (EVar "t") "RemovingReplicas")]);
   SReturn [(EVar "sz")]].
(** message/messages.gen.go:11595 *)
Definition go_OngoingPartitionReassignment46_Encode : func := mkFunc [("t", GNamed "OngoingPartitionReassignment46"); ("e", GPtr (GNamed "Encoder")); ("version", GInt I16)] []
  [SExpr (EMethod (EVar "e") "PutInt32" [(EField (EVar "t") "PartitionIndex")]);
   SExpr (EMethod (EVar "e") "PutInt32Array" [(EField (EVar "t") "Replicas")]);
   SExpr (EMethod (EVar "e") "PutInt32Array" [(EField (EVar "t") "AddingReplicas")]);
   SExpr (EMethod (EVar "e") "PutInt32Array" [(EField (EVar "t") "RemovingReplicas")])].
(** message/messages.gen.go:11603 *)
Definition go_OngoingPartitionReassignment46_Decode : func := mkFunc [("t", GPtr (GNamed "OngoingPartitionReassignment46")); ("d", GPtr (GNamed "Decoder")); ("version", GInt I16)] [GNamed "error"]
  [SVar "err" (Some (GNamed "error")) None;
   SAssign [(EField (EVar "t") "PartitionIndex"); (EVar "err")] [(EMethod (EVar "d") "Int32" [])];
   SIf [] (EBin Ne (EVar "err") ENil)
     [SReturn [(EVar "err")]]
     [];
   SAssign [(EField (EVar "t") "Replicas"); (EVar "err")] [(EMethod (EVar "d") "Int32Array" [])];
   SIf [] (EBin Ne (EVar "err") ENil)
     [SReturn [(EVar "err")]]
     [];
   SAssign [(EField (EVar "t") "AddingReplicas"); (EVar "err")] [(EMethod (EVar "d") "Int32Array" [])];
   SIf [] (EBin Ne (EVar "err") ENil)
     [SReturn [(EVar "err")]]
     [];
   SAssign [(EField (EVar "t") "RemovingReplicas"); (EVar "err")] [(EMethod (EVar "d") "Int32Array" [])];
   SIf [] (EBin Ne (EVar "err") ENil)
     [SReturn [(EVar "err")]]
     [];
   SReturn [(EVar "err")]].
(** message/messages.gen.go:11631 *)
Definition go_OffsetDeleteRequest_Size : func := mkFunc [("t", GNamed "OffsetDeleteRequest"); ("version", GInt I16)] [GInt I32]
  [SVar "sz" (Some (GInt I32)) None;
   SOp (EVar "sz") Add (ECall "sizeof.String" [(EField (EVar "t") "GroupId")]);
   SOp (EVar "sz") Add (EGlobal "sizeof.ArrayLength");
   SFor [SDefine ["i"] [(EBin Sub (ELen (EField (EVar "t") "Topics")) (EInt 1))]] (EBin Ge (EVar "i") (EInt 0)) [SOp (EVar "i") Sub (EInt 1)]
     [SOp (EVar "sz") Add (EMethod (EIndex (EField (EVar "t") "Topics") (EVar "i")) "Size" [(EVar "version")])];
   SReturn [(EVar "sz")]].
(** message/messages.gen.go:11642 *)
Definition go_OffsetDeleteRequest_Encode : func := mkFunc [("t", GNamed "OffsetDeleteRequest"); ("e", GPtr (GNamed "Encoder")); ("version", GInt I16)] []
  [SExpr (EMethod (EVar "e") "PutString" [(EField (EVar "t") "GroupId")]);
   SDefine ["len1"] [(ELen (EField (EVar "t") "Topics"))];
   SExpr (EMethod (EVar "e") "PutArrayLength" [(EVar "len1")]);
   SFor [SDefine ["i"] [(EInt 0)]] (EBin Lt (EVar "i") (EVar "len1")) [SOp (EVar "i") Add (EInt 1)]
     [SExpr (EMethod (EIndex (EField (EVar "t") "Topics") (EVar "i")) "Encode" [(EVar "e"); (EVar "version")])]].
(** message/messages.gen.go:11653 *)
Definition go_OffsetDeleteRequest_Decode : func := mkFunc [("t", GPtr (GNamed "OffsetDeleteRequest")); ("d", GPtr (GNamed "Decoder")); ("version", GInt I16)] [GNamed "error"]
  [SVar "err" (Some (GNamed "error")) None;
   SAssign [(EField (EVar "t") "GroupId"); (EVar "err")] [(EMethod (EVar "d") "String" [])];
   SIf [] (EBin Ne (EVar "err") ENil)
     [SReturn [(EVar "err")]]
     [];
   SIf [SDefine ["n"; "err"] [(EMethod (EVar "d") "ArrayLength" [])]] (EBin Ne (EVar "err") ENil)
     [SReturn [(EVar "err")]]
     [SIf [] (EBin Ge (EVar "n") (EInt 0))
       [SAssign [(EField (EVar "t") "Topics")] [(EMake (GSlice (GNamed "OffsetDeleteRequestTopic47")) (EVar "n"))];
        SFor [SDefine ["i"] [(EInt 0)]] (EBin Lt (EVar "i") (EVar "n")) [SOp (EVar "i") Add (EInt 1)]
         [SVar "item" (Some (GNamed "OffsetDeleteRequestTopic47")) None;
          SIf [SDefine ["err"] [(EMethod (EAddr (EVar "item")) "Decode" [(EVar "d"); (EVar "version")])]] (EBin Ne (EVar "err") ENil)
           [SReturn [(EVar "err")]]
           [];
          SAssign [(EIndex (EField (EVar "t") "Topics") (EVar "i"))] [(EVar "item")]]]
       []];
   SReturn [(EVar "err")]].
(** message/messages.gen.go:11681 *)
Definition go_OffsetDeleteRequestTopic47_Size : func := mkFunc [("t", GNamed "OffsetDeleteRequestTopic47"); ("version", GInt I16)] [GInt I32]
  [SVar "sz" (Some (GInt I32)) None;
   SOp (EVar "sz") Add (ECall "sizeof.String" [(EField (EVar "t") "Name")]);
   SOp (EVar "sz") Add (EGlobal "sizeof.ArrayLength");
   SFor [SDefine ["i"] [(EBin Sub (ELen (EField (EVar "t") "Partitions")) (EInt 1))]] (EBin Ge (EVar "i") (EInt 0)) [SOp (EVar "i") Sub (EInt 1)]
     [SOp (EVar "sz") Add (EMethod (EIndex (EField (EVar "t") "Partitions") (EVar "i")) "Size" [(EVar "version")])];
   SReturn [(EVar "sz")]].
(** message/messages.gen.go:11692 *)
Definition go_OffsetDeleteRequestTopic47_Encode : func := mkFunc [("t", GNamed "OffsetDeleteRequestTopic47"); ("e", GPtr (GNamed "Encoder")); ("version", GInt I16)] []
  [SExpr (EMethod (EVar "e") "PutString" [(EField (EVar "t") "Name")]);
   SDefine ["len1"] [(ELen (EField (EVar "t") "Partitions"))];
   SExpr (EMethod (EVar "e") "PutArrayLength" [(EVar "len1")]);
   SFor [SDefine ["i"] [(EInt 0)]] (EBin Lt (EVar "i") (EVar "len1")) [SOp (EVar "i") Add (EInt 1)]
     [SExpr (EMethod (EIndex (EField (EVar "t") "Partitions") (EVar "i")) "Encode" [(EVar "e"); (EVar "version")])]].
(** message/messages.gen.go:11703 *)
Definition go_OffsetDeleteRequestTopic47_Decode : func := mkFunc [("t", GPtr (GNamed "OffsetDeleteRequestTopic47")); ("d", GPtr (GNamed "Decoder")); ("version", GInt I16)] [GNamed "error"]
  [SVar "err" (Some (GNamed "error")) None;
   SAssign [(EField (EVar "t") "Name"); (EVar "err")] [(EMethod (EVar "d") "String" [])];
   SIf [] (EBin Ne (EVar "err") ENil)
     [SReturn [(EVar "err")]]
     [];
   SIf [SDefine ["n"; "err"] [(EMethod (EVar "d") "ArrayLength" [])]] (EBin Ne (EVar "err") ENil)
     [SReturn [(EVar "err")]]
     [SIf [] (EBin Ge (EVar "n") (EInt 0))
       [SAssign [(EField (EVar "t") "Partitions")] [(EMake (GSlice (GNamed "OffsetDeleteRequestPartition47")) (EVar "n"))];
        SFor [SDefine ["i"] [(EInt 0)]] (EBin Lt (EVar "i") (EVar "n")) [SOp (EVar "i") Add (EInt 1)]
         [SVar "item" (Some (GNamed "OffsetDeleteRequestPartition47")) None;
          SIf [SDefine ["err"] [(EMethod (EAddr (EVar "item")) "Decode" [(EVar "d"); (EVar "version")])]] (EBin Ne (EVar "err") ENil)
           [SReturn [(EVar "err")]]
           [];
          SAssign [(EIndex (EField (EVar "t") "Partitions") (EVar "i"))] [(EVar "item")]]]
       []];
   SReturn [(EVar "err")]].
(** message/messages.gen.go:11730 *)
Definition go_OffsetDeleteRequestPartition47_Size : func := mkFunc [("t", GNamed "OffsetDeleteRequestPartition47"); ("version", GInt I16)] [GInt I32]
  [SVar "sz" (Some (GInt I32)) None;
   SOp (EVar "sz") Add (EGlobal "sizeof.Int32");
   SReturn [(EVar "sz")]].
(** message/messages.gen.go:11737 *)
Definition go_OffsetDeleteRequestPartition47_Encode : func := mkFunc [("t", GNamed "OffsetDeleteRequestPartition47"); ("e", GPtr (GNamed "Encoder")); ("version", GInt I16)] []
  [SExpr (EMethod (EVar "e") "PutInt32" [(EField (EVar "t") "PartitionIndex")])].
(** message/messages.gen.go:11742 *)
Definition go_OffsetDeleteRequestPartition47_Decode : func := mkFunc [("t", GPtr (GNamed "OffsetDeleteRequestPartition47")); ("d", GPtr (GNamed "Decoder")); ("version", GInt I16)] [GNamed "error"]
  [SVar "err" (Some (GNamed "error")) None;
   SAssign [(EField (EVar "t") "PartitionIndex"); (EVar "err")] [(EMethod (EVar "d") "Int32" [])];
   SIf [] (EBin Ne (EVar "err") ENil)
     [SReturn [(EVar "err")]]
     [];
   SReturn [(EVar "err")]].
(** message/messages.gen.go:11759 *)
Definition go_OffsetDeleteResponse_Size : func := mkFunc [("t", GNamed "OffsetDeleteResponse"); ("version", GInt I16)] [GInt I32]
  [SVar "sz" (Some (GInt I32)) None;
   SOp (EVar "sz") Add (EGlobal "sizeof.Int16");
   SOp (EVar "sz") Add (EGlobal "sizeof.Int32");
   SOp (EVar "sz") Add (EGlobal "sizeof.ArrayLength");
   SFor [SDefine ["i"] [(EBin Sub (ELen (EField (EVar "t") "Topics")) (EInt 1))]] (EBin Ge (EVar "i") (EInt 0)) [SOp (EVar "i") Sub (EInt 1)]
     [SOp (EVar "sz") Add (EMethod (EIndex (EField (EVar "t") "Topics") (EVar "i")) "Size" [(EVar "version")])];
   SReturn [(EVar "sz")]].
(** message/messages.gen.go:11771 *)
Definition go_OffsetDeleteResponse_Encode : func := mkFunc [("t", GNamed "OffsetDeleteResponse"); ("e", GPtr (GNamed "Encoder")); ("version", GInt I16)] []
  [SExpr (EMethod (EVar "e") "PutInt16" [(EField (EVar "t") "ErrorCode")]);
   SExpr (EMethod (EVar "e") "PutInt32" [(EField (EVar "t") "ThrottleTimeMs")]);
   SDefine ["len2"] [(ELen (EField (EVar "t") "Topics"))];
   SExpr (EMethod (EVar "e") "PutArrayLength" [(EVar "len2")]);
   SFor [SDefine ["i"] [(EInt 0)]] (EBin Lt (EVar "i") (EVar "len2")) [SOp (EVar "i") Add (EInt 1)]
     [SExpr (EMethod (EIndex (EField (EVar "t") "Topics") (EVar "i")) "Encode" [(EVar "e"); (EVar "version")])]].
(** message/messages.gen.go:11783 *)
Definition go_OffsetDeleteResponse_Decode : func := mkFunc [("t", GPtr (GNamed "OffsetDeleteResponse")); ("d", GPtr (GNamed "Decoder")); ("version", GInt I16)] [GNamed "error"]
  [SVar "err" (Some (GNamed "error")) None;
   SAssign [(EField (EVar "t") "ErrorCode"); (EVar "err")] [(EMethod (EVar "d") "Int16" [])];
   SIf [] (EBin Ne (EVar "err") ENil)
     [SReturn [(EVar "err")]]
     [];
   SAssign [(EField (EVar "t") "ThrottleTimeMs"); (EVar "err")] [(EMethod (EVar "d") "Int32" [])];
   SIf [] (EBin Ne (EVar "err") ENil)
     [SReturn [(EVar "err")]]
     [];
   SIf [SDefine ["n"; "err"] [(EMethod (EVar "d") "ArrayLength" [])]] (EBin Ne (EVar "err") ENil)
     [SReturn [(EVar "err")]]
     [SIf [] (EBin Ge (EVar "n") (EInt 0))
       [SAssign [(EField (EVar "t") "Topics")] [(EMake (GSlice (GNamed "OffsetDeleteResponseTopic47")) (EVar "n"))];
        SFor [SDefine ["i"] [(EInt 0)]] (EBin Lt (EVar "i") (EVar "n")) [SOp (EVar "i") Add (EInt 1)]
         [SVar "item" (Some (GNamed "OffsetDeleteResponseTopic47")) None;
          SIf [SDefine ["err"] [(EMethod (EAddr (EVar "item")) "Decode" [(EVar "d"); (EVar "version")])]] (EBin Ne (EVar "err") ENil)
           [SReturn [(EVar "err")]]
           [];
          SAssign [(EIndex (EField (EVar "t") "Topics") (EVar "i"))] [(EVar "item")]]]
       []];
   SReturn [(EVar "err")]].
(** message/messages.gen.go:11815 *)
Definition go_OffsetDeleteResponseTopic47_Size : func := mkFunc [("t", GNamed "OffsetDeleteResponseTopic47"); ("version", GInt I16)] [GInt I32]
  [SVar "sz" (Some (GInt I32)) None;
   SOp (EVar "sz") Add (ECall "sizeof.String" [(EField (EVar "t") "Name")]);
   SOp (EVar "sz") Add (EGlobal "sizeof.ArrayLength");
   SFor [SDefine ["i"] [(EBin Sub (ELen (EField (EVar "t") "Partitions")) (EInt 1))]] (EBin Ge (EVar "i") (EInt 0)) [SOp (EVar "i") Sub (EInt 1)]
     [SOp (EVar "sz") Add (EMethod (EIndex (EField (EVar "t") "Partitions") (EVar "i")) "Size" [(EVar "version")])];
   SReturn [(EVar "sz")]].
(** message/messages.gen.go:11826 *)
Definition go_OffsetDeleteResponseTopic47_Encode : func := mkFunc [("t", GNamed "OffsetDeleteResponseTopic47"); ("e", GPtr (GNamed "Encoder")); ("version", GInt I16)] []
  [SExpr (EMethod (EVar "e") "PutString" [(EField (EVar "t") "Name")]);
   SDefine ["len1"] [(ELen (EField (EVar "t") "Partitions"))];
   SExpr (EMethod (EVar "e") "PutArrayLength" [(EVar "len1")]);
   SFor [SDefine ["i"] [(EInt 0)]] (EBin Lt (EVar "i") (EVar "len1")) [SOp (EVar "i") Add (EInt 1)]
     [SExpr (EMethod (EIndex (EField (EVar "t") "Partitions") (EVar "i")) "Encode" [(EVar "e"); (EVar "version")])]].
(** message/messages.gen.go:11837 *)
Definition go_OffsetDeleteResponseTopic47_Decode : func := mkFunc [("t", GPtr (GNamed "OffsetDeleteResponseTopic47")); ("d", GPtr (GNamed "Decoder")); ("version", GInt I16)] [GNamed "error"]
  [SVar "err" (Some (GNamed "error")) None;
   SAssign [(EField (EVar "t") "Name"); (EVar "err")] [(EMethod (EVar "d") "String" [])];
   SIf [] (EBin Ne (EVar "err") ENil)
     [SReturn [(EVar "err")]]
     [];
   SIf [SDefine ["n"; "err"] [(EMethod (EVar "d") "ArrayLength" [])]] (EBin Ne (EVar "err") ENil)
     [SReturn [(EVar "err")]]
     [SIf [] (EBin Ge (EVar "n") (EInt 0))
       [SAssign [(EField (EVar "t") "Partitions")] [(EMake (GSlice (GNamed "OffsetDeleteResponsePartition47")) (EVar "n"))];
        SFor [SDefine ["i"] [(EInt 0)]] (EBin Lt (EVar "i") (EVar "n")) [SOp (EVar "i") Add (EInt 1)]
         [SVar "item" (Some (GNamed "OffsetDeleteResponsePartition47")) None;
          SIf [SDefine ["err"] [(EMethod (EAddr (EVar "item")) "Decode" [(EVar "d"); (EVar "version")])]] (EBin Ne (EVar "err") ENil)
           [SReturn [(EVar "err")]]
           [];
          SAssign [(EIndex (EField (EVar "t") "Partitions") (EVar "i"))] [(EVar "item")]]]
       []];
   SReturn [(EVar "err")]].
(** message/messages.gen.go:11865 *)
Definition go_OffsetDeleteResponsePartition47_Size : func := mkFunc [("t", GNamed "OffsetDeleteResponsePartition47"); ("version", GInt I16)] [GInt I32]
  [SVar "sz" (Some (GInt I32)) None;
   SOp (EVar "sz") Add (EGlobal "sizeof.Int32");
   SOp (EVar "sz") Add (EGlobal "sizeof.Int16");
   SReturn [(EVar "sz")]].
(** message/messages.gen.go:11873 *)
Definition go_OffsetDeleteResponsePartition47_Encode : func := mkFunc [("t", GNamed "OffsetDeleteResponsePartition47"); ("e", GPtr (GNamed "Encoder")); ("version", GInt I16)] []
  [SExpr (EMethod (EVar "e") "PutInt32" [(EField (EVar "t") "PartitionIndex")]);
   SExpr (EMethod (EVar "e") "PutInt16" [(EField (EVar "t") "ErrorCode")])].
(** message/messages.gen.go:11879 *)
Definition go_OffsetDeleteResponsePartition47_Decode : func := mkFunc [("t", GPtr (GNamed "OffsetDeleteResponsePartition47")); ("d", GPtr (GNamed "Decoder")); ("version", GInt I16)] [GNamed "error"]
  [SVar "err" (Some (GNamed "error")) None;
   SAssign [(EField (EVar "t") "PartitionIndex"); (EVar "err")] [(EMethod (EVar "d") "Int32" [])];
   SIf [] (EBin Ne (EVar "err") ENil)
     [SReturn [(EVar "err")]]
     [];
   SAssign [(EField (EVar "t") "ErrorCode"); (EVar "err")] [(EMethod (EVar "d") "Int16" [])];
   SIf [] (EBin Ne (EVar "err") ENil)
     [SReturn [(EVar "err")]]
     [];
   SReturn [(EVar "err")]].

Definition messages : package := mkPackage
  [("ProduceRequest", [("TransactionalId", GString); ("Acks", GInt I16); ("TimeoutMs", GInt I32); ("Topics", GSlice (GNamed "TopicProduceData0"))]);
   ("TopicProduceData0", [("Name", GString); ("Partitions", GSlice (GNamed "PartitionProduceData0"))]);
   ("PartitionProduceData0", [("PartitionIndex", GInt I32); ("Records", GSlice (GInt U8))]);
   ("ProduceResponse", [("Responses", GSlice (GNamed "TopicProduceResponse0")); ("ThrottleTimeMs", GInt I32)]);
   ("TopicProduceResponse0", [("Name", GString); ("Partitions", GSlice (GNamed "PartitionProduceResponse0"))]);
   ("PartitionProduceResponse0", [("PartitionIndex", GInt I32); ("ErrorCode", GInt I16); ("BaseOffset", GInt I64); ("LogAppendTimeMs", GInt I64); ("LogStartOffset", GInt I64); ("RecordErrors", GSlice (GNamed "BatchIndexAndErrorMessage0")); ("ErrorMessage", GString)]);
   ("BatchIndexAndErrorMessage0", [("BatchIndex", GInt I32); ("BatchIndexErrorMessage", GString)]);
   ("RequestHeader", [("RequestApiKey", GInt I16); ("RequestApiVersion", GInt I16); ("CorrelationId", GInt I32); ("ClientId", GString)]);
   ("ResponseHeader", [("CorrelationId", GInt I32)]);
   ("FetchRequest", [("ReplicaId", GInt I32); ("MaxWait", GInt I32); ("MinBytes", GInt I32); ("MaxBytes", GInt I32); ("IsolationLevel", GInt I8); ("SessionId", GInt I32); ("Epoch", GInt I32); ("Topics", GSlice (GNamed "FetchableTopic1")); ("Forgotten", GSlice (GNamed "ForgottenTopic1")); ("RackId", GString)]);
   ("FetchableTopic1", [("Name", GString); ("FetchPartitions", GSlice (GNamed "FetchPartition1"))]);
   ("FetchPartition1", [("PartitionIndex", GInt I32); ("CurrentLeaderEpoch", GInt I32); ("FetchOffset", GInt I64); ("LogStartOffset", GInt I64); ("MaxBytes", GInt I32)]);
   ("ForgottenTopic1", [("Name", GString); ("ForgottenPartitionIndexes", GSlice (GInt I32))]);
   ("FetchResponse", [("ThrottleTimeMs", GInt I32); ("ErrorCode", GInt I16); ("SessionId", GInt I32); ("Topics", GSlice (GNamed "FetchableTopicResponse1"))]);
   ("FetchableTopicResponse1", [("Name", GString); ("Partitions", GSlice (GNamed "FetchablePartitionResponse1"))]);
   ("FetchablePartitionResponse1", [("PartitionIndex", GInt I32); ("ErrorCode", GInt I16); ("HighWatermark", GInt I64); ("LastStableOffset", GInt I64); ("LogStartOffset", GInt I64); ("Aborted", GSlice (GNamed "AbortedTransaction1")); ("PreferredReadReplica", GInt I32); ("Records", GSlice (GInt U8))]);
   ("AbortedTransaction1", [("ProducerId", GInt I64); ("FirstOffset", GInt I64)]);
   ("ListOffsetRequest", [("ReplicaId", GInt I32); ("IsolationLevel", GInt I8); ("Topics", GSlice (GNamed "ListOffsetTopic2"))]);
   ("ListOffsetTopic2", [("Name", GString); ("Partitions", GSlice (GNamed "ListOffsetPartition2"))]);
   ("ListOffsetPartition2", [("PartitionIndex", GInt I32); ("CurrentLeaderEpoch", GInt I32); ("Timestamp", GInt I64); ("MaxNumOffsets", GInt I32)]);
   ("ListOffsetResponse", [("ThrottleTimeMs", GInt I32); ("Topics", GSlice (GNamed "ListOffsetTopicResponse2"))]);
   ("ListOffsetTopicResponse2", [("Name", GString); ("Partitions", GSlice (GNamed "ListOffsetPartitionResponse2"))]);
   ("ListOffsetPartitionResponse2", [("PartitionIndex", GInt I32); ("ErrorCode", GInt I16); ("OldStyleOffsets", GSlice (GInt I64)); ("Timestamp", GInt I64); ("Offset", GInt I64); ("LeaderEpoch", GInt I32)]);
   ("MetadataRequest", [("Topics", GSlice (GNamed "MetadataRequestTopic3")); ("AllowAutoTopicCreation", GBool); ("IncludeClusterAuthorizedOperations", GBool); ("IncludeTopicAuthorizedOperations", GBool)]);
   ("MetadataRequestTopic3", [("Name", GString)]);
   ("MetadataResponse", [("ThrottleTimeMs", GInt I32); ("Brokers", GSlice (GNamed "MetadataResponseBroker3")); ("ClusterId", GString); ("ControllerId", GInt I32); ("Topics", GSlice (GNamed "MetadataResponseTopic3")); ("ClusterAuthorizedOperations", GInt I32)]);
   ("MetadataResponseBroker3", [("NodeId", GInt I32); ("Host", GString); ("Port", GInt I32); ("Rack", GString)]);
   ("MetadataResponseTopic3", [("ErrorCode", GInt I16); ("Name", GString); ("IsInternal", GBool); ("Partitions", GSlice (GNamed "MetadataResponsePartition3")); ("TopicAuthorizedOperations", GInt I32)]);
   ("MetadataResponsePartition3", [("ErrorCode", GInt I16); ("PartitionIndex", GInt I32); ("LeaderId", GInt I32); ("LeaderEpoch", GInt I32); ("ReplicaNodes", GSlice (GInt I32)); ("IsrNodes", GSlice (GInt I32)); ("OfflineReplicas", GSlice (GInt I32))]);
   ("LeaderAndIsrRequest", [("ControllerId", GInt I32); ("ControllerEpoch", GInt I32); ("BrokerEpoch", GInt I64); ("UngroupedPartitionStates", GSlice (GNamed "LeaderAndIsrPartitionState4")); ("TopicStates", GSlice (GNamed "LeaderAndIsrTopicState4")); ("LiveLeaders", GSlice (GNamed "LeaderAndIsrLiveLeader4"))]);
   ("LeaderAndIsrTopicState4", [("TopicName", GString); ("PartitionStates", GSlice (GNamed "LeaderAndIsrPartitionState4"))]);
   ("LeaderAndIsrLiveLeader4", [("BrokerId", GInt I32); ("HostName", GString); ("Port", GInt I32)]);
   ("LeaderAndIsrPartitionState4", [("TopicName", GString); ("PartitionIndex", GInt I32); ("ControllerEpoch", GInt I32); ("Leader", GInt I32); ("LeaderEpoch", GInt I32); ("Isr", GSlice (GInt I32)); ("ZkVersion", GInt I32); ("Replicas", GSlice (GInt I32)); ("AddingReplicas", GSlice (GInt I32)); ("RemovingReplicas", GSlice (GInt I32)); ("IsNew", GBool)]);
   ("LeaderAndIsrResponse", [("ErrorCode", GInt I16); ("PartitionErrors", GSlice (GNamed "LeaderAndIsrPartitionError4"))]);
   ("LeaderAndIsrPartitionError4", [("TopicName", GString); ("PartitionIndex", GInt I32); ("ErrorCode", GInt I16)]);
   ("StopReplicaRequest", [("ControllerId", GInt I32); ("ControllerEpoch", GInt I32); ("BrokerEpoch", GInt I64); ("DeletePartitions", GBool); ("UngroupedPartitions", GSlice (GNamed "StopReplicaPartitionV05")); ("Topics", GSlice (GNamed "StopReplicaTopic5"))]);
   ("StopReplicaPartitionV05", [("TopicName", GString); ("PartitionIndex", GInt I32)]);
   ("StopReplicaTopic5", [("Name", GString); ("PartitionIndexes", GSlice (GInt I32))]);
   ("StopReplicaResponse", [("ErrorCode", GInt I16); ("PartitionErrors", GSlice (GNamed "StopReplicaPartitionError5"))]);
   ("StopReplicaPartitionError5", [("TopicName", GString); ("PartitionIndex", GInt I32); ("ErrorCode", GInt I16)]);
   ("UpdateMetadataRequest", [("ControllerId", GInt I32); ("ControllerEpoch", GInt I32); ("BrokerEpoch", GInt I64); ("UngroupedPartitionStates", GSlice (GNamed "UpdateMetadataPartitionState6")); ("TopicStates", GSlice (GNamed "UpdateMetadataTopicState6")); ("LiveBrokers", GSlice (GNamed "UpdateMetadataBroker6"))]);
   ("UpdateMetadataTopicState6", [("TopicName", GString); ("PartitionStates", GSlice (GNamed "UpdateMetadataPartitionState6"))]);
   ("UpdateMetadataBroker6", [("Id", GInt I32); ("V0Host", GString); ("V0Port", GInt I32); ("Endpoints", GSlice (GNamed "UpdateMetadataEndpoint6")); ("Rack", GString)]);
   ("UpdateMetadataEndpoint6", [("Port", GInt I32); ("Host", GString); ("Listener", GString); ("SecurityProtocol", GInt I16)]);
   ("UpdateMetadataPartitionState6", [("TopicName", GString); ("PartitionIndex", GInt I32); ("ControllerEpoch", GInt I32); ("Leader", GInt I32); ("LeaderEpoch", GInt I32); ("Isr", GSlice (GInt I32)); ("ZkVersion", GInt I32); ("Replicas", GSlice (GInt I32)); ("OfflineReplicas", GSlice (GInt I32))]);
   ("UpdateMetadataResponse", [("ErrorCode", GInt I16)]);
   ("ControlledShutdownRequest", [("BrokerId", GInt I32); ("BrokerEpoch", GInt I64)]);
   ("ControlledShutdownResponse", [("ErrorCode", GInt I16); ("RemainingPartitions", GSlice (GNamed "RemainingPartition7"))]);
   ("RemainingPartition7", [("TopicName", GString); ("PartitionIndex", GInt I32)]);
   ("OffsetCommitRequest", [("GroupId", GString); ("GenerationId", GInt I32); ("MemberId", GString); ("GroupInstanceId", GString); ("RetentionTimeMs", GInt I64); ("Topics", GSlice (GNamed "OffsetCommitRequestTopic8"))]);
   ("OffsetCommitRequestTopic8", [("Name", GString); ("Partitions", GSlice (GNamed "OffsetCommitRequestPartition8"))]);
   ("OffsetCommitRequestPartition8", [("PartitionIndex", GInt I32); ("CommittedOffset", GInt I64); ("CommittedLeaderEpoch", GInt I32); ("CommittedMetadata", GString)]);
   ("OffsetCommitResponse", [("ThrottleTimeMs", GInt I32); ("Topics", GSlice (GNamed "OffsetCommitResponseTopic8"))]);
   ("OffsetCommitResponseTopic8", [("Name", GString); ("Partitions", GSlice (GNamed "OffsetCommitResponsePartition8"))]);
   ("OffsetCommitResponsePartition8", [("PartitionIndex", GInt I32); ("ErrorCode", GInt I16)]);
   ("OffsetFetchRequest", [("GroupId", GString); ("Topics", GSlice (GNamed "OffsetFetchRequestTopic9"))]);
   ("OffsetFetchRequestTopic9", [("Name", GString); ("PartitionIndexes", GSlice (GInt I32))]);
   ("OffsetFetchResponse", [("ThrottleTimeMs", GInt I32); ("Topics", GSlice (GNamed "OffsetFetchResponseTopic9")); ("ErrorCode", GInt I16)]);
   ("OffsetFetchResponseTopic9", [("Name", GString); ("Partitions", GSlice (GNamed "OffsetFetchResponsePartition9"))]);
   ("OffsetFetchResponsePartition9", [("PartitionIndex", GInt I32); ("CommittedOffset", GInt I64); ("CommittedLeaderEpoch", GInt I32); ("Metadata", GString); ("ErrorCode", GInt I16)]);
   ("FindCoordinatorRequest", [("Key", GString); ("KeyType", GInt I8)]);
   ("FindCoordinatorResponse", [("ThrottleTimeMs", GInt I32); ("ErrorCode", GInt I16); ("ErrorMessage", GString); ("NodeId", GInt I32); ("Host", GString); ("Port", GInt I32)]);
   ("JoinGroupRequest", [("GroupId", GString); ("SessionTimeoutMs", GInt I32); ("RebalanceTimeoutMs", GInt I32); ("MemberId", GString); ("GroupInstanceId", GString); ("ProtocolType", GString); ("Protocols", GSlice (GNamed "JoinGroupRequestProtocol11"))]);
   ("JoinGroupRequestProtocol11", [("Name", GString); ("Metadata", GSlice (GInt U8))]);
   ("JoinGroupResponse", [("ThrottleTimeMs", GInt I32); ("ErrorCode", GInt I16); ("GenerationId", GInt I32); ("ProtocolName", GString); ("Leader", GString); ("MemberId", GString); ("Members", GSlice (GNamed "JoinGroupResponseMember11"))]);
   ("JoinGroupResponseMember11", [("MemberId", GString); ("GroupInstanceId", GString); ("Metadata", GSlice (GInt U8))]);
   ("HeartbeatRequest", [("GroupId", GString); ("GenerationId", GInt I32); ("MemberId", GString); ("GroupInstanceId", GString)]);
   ("HeartbeatResponse", [("ThrottleTimeMs", GInt I32); ("ErrorCode", GInt I16)]);
   ("LeaveGroupRequest", [("GroupId", GString); ("MemberId", GString); ("Members", GSlice (GNamed "MemberIdentity13"))]);
   ("MemberIdentity13", [("MemberId", GString); ("GroupInstanceId", GString)]);
   ("LeaveGroupResponse", [("ThrottleTimeMs", GInt I32); ("ErrorCode", GInt I16); ("Members", GSlice (GNamed "MemberResponse13"))]);
   ("MemberResponse13", [("MemberId", GString); ("GroupInstanceId", GString); ("ErrorCode", GInt I16)]);
   ("SyncGroupRequest", [("GroupId", GString); ("GenerationId", GInt I32); ("MemberId", GString); ("GroupInstanceId", GString); ("Assignments", GSlice (GNamed "SyncGroupRequestAssignment14"))]);
   ("SyncGroupRequestAssignment14", [("MemberId", GString); ("Assignment", GSlice (GInt U8))]);
   ("SyncGroupResponse", [("ThrottleTimeMs", GInt I32); ("ErrorCode", GInt I16); ("Assignment", GSlice (GInt U8))]);
   ("DescribeGroupsRequest", [("Groups", GSlice (GString)); ("IncludeAuthorizedOperations", GBool)]);
   ("DescribeGroupsResponse", [("ThrottleTimeMs", GInt I32); ("Groups", GSlice (GNamed "DescribedGroup15"))]);
   ("DescribedGroup15", [("ErrorCode", GInt I16); ("GroupId", GString); ("GroupState", GString); ("ProtocolType", GString); ("ProtocolData", GString); ("Members", GSlice (GNamed "DescribedGroupMember15")); ("AuthorizedOperations", GInt I32)]);
   ("DescribedGroupMember15", [("MemberId", GString); ("GroupInstanceId", GString); ("ClientId", GString); ("ClientHost", GString); ("MemberMetadata", GSlice (GInt U8)); ("MemberAssignment", GSlice (GInt U8))]);
   ("ListGroupsRequest", []);
   ("ListGroupsResponse", [("ThrottleTimeMs", GInt I32); ("ErrorCode", GInt I16); ("Groups", GSlice (GNamed "ListedGroup16"))]);
   ("ListedGroup16", [("GroupId", GString); ("ProtocolType", GString)]);
   ("SaslHandshakeRequest", [("Mechanism", GString)]);
   ("SaslHandshakeResponse", [("ErrorCode", GInt I16); ("Mechanisms", GSlice (GString))]);
   ("ApiVersionsRequest", [("ClientSoftwareName", GString); ("ClientSoftwareVersion", GString)]);
   ("ApiVersionsResponse", [("ErrorCode", GInt I16); ("ApiKeys", GSlice (GNamed "ApiVersionsResponseKey18")); ("ThrottleTimeMs", GInt I32)]);
   ("ApiVersionsResponseKey18", [("ApiKey", GInt I16); ("MinVersion", GInt I16); ("MaxVersion", GInt I16)]);
   ("CreateTopicsRequest", [("Topics", GSlice (GNamed "CreatableTopic19")); ("timeoutMs", GInt I32); ("validateOnly", GBool)]);
   ("CreatableTopic19", [("Name", GString); ("NumPartitions", GInt I32); ("ReplicationFactor", GInt I16); ("Assignments", GSlice (GNamed "CreatableReplicaAssignment19")); ("Configs", GSlice (GNamed "CreateableTopicConfig19"))]);
   ("CreatableReplicaAssignment19", [("PartitionIndex", GInt I32); ("BrokerIds", GSlice (GInt I32))]);
   ("CreateableTopicConfig19", [("Name", GString); ("Value", GString)]);
   ("CreateTopicsResponse", [("ThrottleTimeMs", GInt I32); ("Topics", GSlice (GNamed "CreatableTopicResult19"))]);
   ("CreatableTopicResult19", [("Name", GString); ("ErrorCode", GInt I16); ("ErrorMessage", GString); ("TopicConfigErrorCode", GInt I16); ("NumPartitions", GInt I32); ("ReplicationFactor", GInt I16); ("Configs", GSlice (GNamed "CreatableTopicConfigs19"))]);
   ("CreatableTopicConfigs19", [("Name", GString); ("Value", GString); ("ReadOnly", GBool); ("ConfigSource", GInt I8); ("IsSensitive", GBool)]);
   ("DeleteTopicsRequest", [("TopicNames", GSlice (GString)); ("TimeoutMs", GInt I32)]);
   ("DeleteTopicsResponse", [("ThrottleTimeMs", GInt I32); ("Responses", GSlice (GNamed "DeletableTopicResult20"))]);
   ("DeletableTopicResult20", [("Name", GString); ("ErrorCode", GInt I16)]);
   ("DeleteRecordsRequest", [("Topics", GSlice (GNamed "DeleteRecordsTopic21")); ("TimeoutMs", GInt I32)]);
   ("DeleteRecordsTopic21", [("Name", GString); ("Partitions", GSlice (GNamed "DeleteRecordsPartition21"))]);
   ("DeleteRecordsPartition21", [("PartitionIndex", GInt I32); ("Offset", GInt I64)]);
   ("DeleteRecordsResponse", [("ThrottleTimeMs", GInt I32); ("Topics", GSlice (GNamed "DeleteRecordsTopicResult21"))]);
   ("DeleteRecordsTopicResult21", [("Name", GString); ("Partitions", GSlice (GNamed "DeleteRecordsPartitionResult21"))]);
   ("DeleteRecordsPartitionResult21", [("PartitionIndex", GInt I32); ("LowWatermark", GInt I64); ("ErrorCode", GInt I16)]);
   ("InitProducerIdRequest", [("TransactionalId", GString); ("TransactionTimeoutMs", GInt I32)]);
   ("InitProducerIdResponse", [("ThrottleTimeMs", GInt I32); ("ErrorCode", GInt I16); ("ProducerId", GInt I64); ("ProducerEpoch", GInt I16)]);
   ("OffsetForLeaderEpochRequest", [("ReplicaId", GInt I32); ("Topics", GSlice (GNamed "OffsetForLeaderTopic23"))]);
   ("OffsetForLeaderTopic23", [("Name", GString); ("Partitions", GSlice (GNamed "OffsetForLeaderPartition23"))]);
   ("OffsetForLeaderPartition23", [("PartitionIndex", GInt I32); ("CurrentLeaderEpoch", GInt I32); ("LeaderEpoch", GInt I32)]);
   ("OffsetForLeaderEpochResponse", [("ThrottleTimeMs", GInt I32); ("Topics", GSlice (GNamed "OffsetForLeaderTopicResult23"))]);
   ("OffsetForLeaderTopicResult23", [("Name", GString); ("Partitions", GSlice (GNamed "OffsetForLeaderPartitionResult23"))]);
   ("OffsetForLeaderPartitionResult23", [("ErrorCode", GInt I16); ("PartitionIndex", GInt I32); ("LeaderEpoch", GInt I32); ("EndOffset", GInt I64)]);
   ("AddPartitionsToTxnRequest", [("TransactionalId", GString); ("ProducerId", GInt I64); ("ProducerEpoch", GInt I16); ("Topics", GSlice (GNamed "AddPartitionsToTxnTopic24"))]);
   ("AddPartitionsToTxnTopic24", [("Name", GString); ("Partitions", GSlice (GInt I32))]);
   ("AddPartitionsToTxnResponse", [("ThrottleTimeMs", GInt I32); ("Results", GSlice (GNamed "AddPartitionsToTxnTopicResult24"))]);
   ("AddPartitionsToTxnTopicResult24", [("Name", GString); ("Results", GSlice (GNamed "AddPartitionsToTxnPartitionResult24"))]);
   ("AddPartitionsToTxnPartitionResult24", [("PartitionIndex", GInt I32); ("ErrorCode", GInt I16)]);
   ("AddOffsetsToTxnRequest", [("TransactionalId", GString); ("ProducerId", GInt I64); ("ProducerEpoch", GInt I16); ("GroupId", GString)]);
   ("AddOffsetsToTxnResponse", [("ThrottleTimeMs", GInt I32); ("ErrorCode", GInt I16)]);
   ("EndTxnRequest", [("TransactionalId", GString); ("ProducerId", GInt I64); ("ProducerEpoch", GInt I16); ("Committed", GBool)]);
   ("EndTxnResponse", [("ThrottleTimeMs", GInt I32); ("ErrorCode", GInt I16)]);
   ("WriteTxnMarkersRequest", [("Markers", GSlice (GNamed "WritableTxnMarker27"))]);
   ("WritableTxnMarker27", [("ProducerId", GInt I64); ("ProducerEpoch", GInt I16); ("TransactionResult", GBool); ("Topics", GSlice (GNamed "WritableTxnMarkerTopic27")); ("CoordinatorEpoch", GInt I32)]);
   ("WritableTxnMarkerTopic27", [("Name", GString); ("PartitionIndexes", GSlice (GInt I32))]);
   ("WriteTxnMarkersResponse", [("Markers", GSlice (GNamed "WritableTxnMarkerResult27"))]);
   ("WritableTxnMarkerResult27", [("ProducerId", GInt I64); ("Topics", GSlice (GNamed "WritableTxnMarkerTopicResult27"))]);
   ("WritableTxnMarkerTopicResult27", [("Name", GString); ("Partitions", GSlice (GNamed "WritableTxnMarkerPartitionResult27"))]);
   ("WritableTxnMarkerPartitionResult27", [("PartitionIndex", GInt I32); ("ErrorCode", GInt I16)]);
   ("TxnOffsetCommitRequest", [("TransactionalId", GString); ("GroupId", GString); ("ProducerId", GInt I64); ("ProducerEpoch", GInt I16); ("Topics", GSlice (GNamed "TxnOffsetCommitRequestTopic28"))]);
   ("TxnOffsetCommitRequestTopic28", [("Name", GString); ("Partitions", GSlice (GNamed "TxnOffsetCommitRequestPartition28"))]);
   ("TxnOffsetCommitRequestPartition28", [("PartitionIndex", GInt I32); ("CommittedOffset", GInt I64); ("CommittedLeaderEpoch", GInt I32); ("CommittedMetadata", GString)]);
   ("TxnOffsetCommitResponse", [("ThrottleTimeMs", GInt I32); ("Topics", GSlice (GNamed "TxnOffsetCommitResponseTopic28"))]);
   ("TxnOffsetCommitResponseTopic28", [("Name", GString); ("Partitions", GSlice (GNamed "TxnOffsetCommitResponsePartition28"))]);
   ("TxnOffsetCommitResponsePartition28", [("PartitionIndex", GInt I32); ("ErrorCode", GInt I16)]);
   ("DescribeAclsRequest", [("ResourceType", GInt I8); ("ResourceNameFilter", GString); ("ResourcePatternType", GInt I8); ("PrincipalFilter", GString); ("HostFilter", GString); ("Operation", GInt I8); ("PermissionType", GInt I8)]);
   ("DescribeAclsResponse", [("ThrottleTimeMs", GInt I32); ("ErrorCode", GInt I16); ("ErrorMessage", GString); ("Resources", GSlice (GNamed "DescribeAclsResource29"))]);
   ("DescribeAclsResource29", [("Type", GInt I8); ("Name", GString); ("PatternType", GInt I8); ("Acls", GSlice (GNamed "AclDescription29"))]);
   ("AclDescription29", [("Principal", GString); ("Host", GString); ("Operation", GInt I8); ("PermissionType", GInt I8)]);
   ("CreateAclsRequest", [("Creations", GSlice (GNamed "CreatableAcl30"))]);
   ("CreatableAcl30", [("ResourceType", GInt I8); ("ResourceName", GString); ("ResourcePatternType", GInt I8); ("Principal", GString); ("Host", GString); ("Operation", GInt I8); ("PermissionType", GInt I8)]);
   ("CreateAclsResponse", [("ThrottleTimeMs", GInt I32); ("Results", GSlice (GNamed "CreatableAclResult30"))]);
   ("CreatableAclResult30", [("ErrorCode", GInt I16); ("ErrorMessage", GString)]);
   ("DeleteAclsRequest", [("Filters", GSlice (GNamed "DeleteAclsFilter31"))]);
   ("DeleteAclsFilter31", [("ResourceTypeFilter", GInt I8); ("ResourceNameFilter", GString); ("PatternTypeFilter", GInt I8); ("PrincipalFilter", GString); ("HostFilter", GString); ("Operation", GInt I8); ("PermissionType", GInt I8)]);
   ("DeleteAclsResponse", [("ThrottleTimeMs", GInt I32); ("FilterResults", GSlice (GNamed "DeleteAclsFilterResult31"))]);
   ("DeleteAclsFilterResult31", [("ErrorCode", GInt I16); ("ErrorMessage", GString); ("MatchingAcls", GSlice (GNamed "DeleteAclsMatchingAcl31"))]);
   ("DeleteAclsMatchingAcl31", [("ErrorCode", GInt I16); ("ErrorMessage", GString); ("ResourceType", GInt I8); ("ResourceName", GString); ("PatternType", GInt I8); ("Principal", GString); ("Host", GString); ("Operation", GInt I8); ("PermissionType", GInt I8)]);
   ("DescribeConfigsRequest", [("Resources", GSlice (GNamed "DescribeConfigsResource32")); ("IncludeSynoyms", GBool)]);
   ("DescribeConfigsResource32", [("ResourceType", GInt I8); ("ResourceName", GString); ("ConfigurationKeys", GSlice (GString))]);
   ("DescribeConfigsResponse", [("ThrottleTimeMs", GInt I32); ("Results", GSlice (GNamed "DescribeConfigsResult32"))]);
   ("DescribeConfigsResult32", [("ErrorCode", GInt I16); ("ErrorMessage", GString); ("ResourceType", GInt I8); ("ResourceName", GString); ("Configs", GSlice (GNamed "DescribeConfigsResourceResult32"))]);
   ("DescribeConfigsResourceResult32", [("Name", GString); ("Value", GString); ("ReadOnly", GBool); ("IsDefault", GBool); ("ConfigSource", GInt I8); ("IsSensitive", GBool); ("Synonyms", GSlice (GNamed "DescribeConfigsSynonym32"))]);
   ("DescribeConfigsSynonym32", [("Name", GString); ("Value", GString); ("Source", GInt I8)]);
   ("AlterConfigsRequest", [("Resources", GSlice (GNamed "AlterConfigsResource33")); ("ValidateOnly", GBool)]);
   ("AlterConfigsResource33", [("ResourceType", GInt I8); ("ResourceName", GString); ("Configs", GSlice (GNamed "AlterableConfig33"))]);
   ("AlterableConfig33", [("Name", GString); ("Value", GString)]);
   ("AlterConfigsResponse", [("ThrottleTimeMs", GInt I32); ("Responses", GSlice (GNamed "AlterConfigsResourceResponse33"))]);
   ("AlterConfigsResourceResponse33", [("ErrorCode", GInt I16); ("ErrorMessage", GString); ("ResourceType", GInt I8); ("ResourceName", GString)]);
   ("AlterReplicaLogDirsRequest", [("Dirs", GSlice (GNamed "AlterReplicaLogDir34"))]);
   ("AlterReplicaLogDir34", [("Path", GString); ("Topics", GSlice (GNamed "AlterReplicaLogDirTopic34"))]);
   ("AlterReplicaLogDirTopic34", [("Name", GString); ("Partitions", GSlice (GInt I32))]);
   ("AlterReplicaLogDirsResponse", [("ThrottleTimeMs", GInt I32); ("Results", GSlice (GNamed "AlterReplicaLogDirTopicResult34"))]);
   ("AlterReplicaLogDirTopicResult34", [("TopicName", GString); ("Partitions", GSlice (GNamed "AlterReplicaLogDirPartitionResult34"))]);
   ("AlterReplicaLogDirPartitionResult34", [("PartitionIndex", GInt I32); ("ErrorCode", GInt I16)]);
   ("DescribeLogDirsRequest", [("Topics", GSlice (GNamed "DescribableLogDirTopic35"))]);
   ("DescribableLogDirTopic35", [("Topic", GString); ("PartitionIndex", GSlice (GInt I32))]);
   ("DescribeLogDirsResponse", [("ThrottleTimeMs", GInt I32); ("Results", GSlice (GNamed "DescribeLogDirsResult35"))]);
   ("DescribeLogDirsResult35", [("ErrorCode", GInt I16); ("LogDir", GString); ("Topics", GSlice (GNamed "DescribeLogDirsTopic35"))]);
   ("DescribeLogDirsTopic35", [("Name", GString); ("Partitions", GSlice (GNamed "DescribeLogDirsPartition35"))]);
   ("DescribeLogDirsPartition35", [("PartitionIndex", GInt I32); ("PartitionSize", GInt I64); ("OffsetLag", GInt I64); ("IsFutureKey", GBool)]);
   ("SaslAuthenticateRequest", [("AuthBytes", GSlice (GInt U8))]);
   ("SaslAuthenticateResponse", [("ErrorCode", GInt I16); ("ErrorMessage", GString); ("AuthBytes", GSlice (GInt U8)); ("SessionLifetimeMs", GInt I64)]);
   ("CreatePartitionsRequest", [("Topics", GSlice (GNamed "CreatePartitionsTopic37")); ("TimeoutMs", GInt I32); ("ValidateOnly", GBool)]);
   ("CreatePartitionsTopic37", [("Name", GString); ("Count", GInt I32); ("Assignments", GSlice (GNamed "CreatePartitionsAssignment37"))]);
   ("CreatePartitionsAssignment37", [("BrokerIds", GSlice (GInt I32))]);
   ("CreatePartitionsResponse", [("ThrottleTimeMs", GInt I32); ("Results", GSlice (GNamed "CreatePartitionsTopicResult37"))]);
   ("CreatePartitionsTopicResult37", [("Name", GString); ("ErrorCode", GInt I16); ("ErrorMessage", GString)]);
   ("CreateDelegationTokenRequest", [("Renewers", GSlice (GNamed "CreatableRenewers38")); ("MaxLifetimeMs", GInt I64)]);
   ("CreatableRenewers38", [("PrincipalType", GString); ("PrincipalName", GString)]);
   ("CreateDelegationTokenResponse", [("ErrorCode", GInt I16); ("PrincipalType", GString); ("PrincipalName", GString); ("IssueTimestampMs", GInt I64); ("ExpiryTimestampMs", GInt I64); ("MaxTimestampMs", GInt I64); ("TokenId", GString); ("Hmac", GSlice (GInt U8)); ("ThrottleTimeMs", GInt I32)]);
   ("RenewDelegationTokenRequest", [("Hmac", GSlice (GInt U8)); ("RenewPeriodMs", GInt I64)]);
   ("RenewDelegationTokenResponse", [("ErrorCode", GInt I16); ("ExpiryTimestampMs", GInt I64); ("ThrottleTimeMs", GInt I32)]);
   ("ExpireDelegationTokenRequest", [("Hmac", GSlice (GInt U8)); ("ExpiryTimePeriodMs", GInt I64)]);
   ("ExpireDelegationTokenResponse", [("ErrorCode", GInt I16); ("ExpiryTimestampMs", GInt I64); ("ThrottleTimeMs", GInt I32)]);
   ("DescribeDelegationTokenRequest", [("Owners", GSlice (GNamed "DescribeDelegationTokenOwner41"))]);
   ("DescribeDelegationTokenOwner41", [("PrincipalType", GString); ("PrincipalName", GString)]);
   ("DescribeDelegationTokenResponse", [("ErrorCode", GInt I16); ("Tokens", GSlice (GNamed "DescribedDelegationToken41")); ("ThrottleTimeMs", GInt I32)]);
   ("DescribedDelegationToken41", [("PrincipalType", GString); ("PrincipalName", GString); ("IssueTimestamp", GInt I64); ("ExpiryTimestamp", GInt I64); ("MaxTimestamp", GInt I64); ("TokenId", GString); ("Hmac", GSlice (GInt U8)); ("Renewers", GSlice (GNamed "DescribedDelegationTokenRenewer41"))]);
   ("DescribedDelegationTokenRenewer41", [("PrincipalType", GString); ("PrincipalName", GString)]);
   ("DeleteGroupsRequest", [("GroupsNames", GSlice (GString))]);
   ("DeleteGroupsResponse", [("ThrottleTimeMs", GInt I32); ("Results", GSlice (GNamed "DeletableGroupResult42"))]);
   ("DeletableGroupResult42", [("GroupId", GString); ("ErrorCode", GInt I16)]);
   ("ElectLeadersRequest", [("ElectionType", GInt I8); ("TopicPartitions", GSlice (GNamed "TopicPartitions43")); ("TimeoutMs", GInt I32)]);
   ("TopicPartitions43", [("Topic", GString); ("PartitionId", GSlice (GInt I32))]);
   ("ElectLeadersResponse", [("ThrottleTimeMs", GInt I32); ("ErrorCode", GInt I16); ("ReplicaElectionResults", GSlice (GNamed "ReplicaElectionResult43"))]);
   ("ReplicaElectionResult43", [("Topic", GString); ("PartitionResult", GSlice (GNamed "PartitionResult43"))]);
   ("PartitionResult43", [("PartitionId", GInt I32); ("ErrorCode", GInt I16); ("ErrorMessage", GString)]);
   ("IncrementalAlterConfigsRequest", [("Resources", GSlice (GNamed "AlterConfigsResource44")); ("ValidateOnly", GBool)]);
   ("AlterConfigsResource44", [("ResourceType", GInt I8); ("ResourceName", GString); ("Configs", GSlice (GNamed "AlterableConfig44"))]);
   ("AlterableConfig44", [("Name", GString); ("ConfigOperation", GInt I8); ("Value", GString)]);
   ("IncrementalAlterConfigsResponse", [("ThrottleTimeMs", GInt I32); ("Responses", GSlice (GNamed "AlterConfigsResourceResponse44"))]);
   ("AlterConfigsResourceResponse44", [("ErrorCode", GInt I16); ("ErrorMessage", GString); ("ResourceType", GInt I8); ("ResourceName", GString)]);
   ("AlterPartitionReassignmentsRequest", [("TimeoutMs", GInt I32); ("Topics", GSlice (GNamed "ReassignableTopic45"))]);
   ("ReassignableTopic45", [("Name", GString); ("Partitions", GSlice (GNamed "ReassignablePartition45"))]);
   ("ReassignablePartition45", [("PartitionIndex", GInt I32); ("Replicas", GSlice (GInt I32))]);
   ("AlterPartitionReassignmentsResponse", [("ThrottleTimeMs", GInt I32); ("ErrorCode", GInt I16); ("ErrorMessage", GString); ("Responses", GSlice (GNamed "ReassignableTopicResponse45"))]);
   ("ReassignableTopicResponse45", [("Name", GString); ("Partitions", GSlice (GNamed "ReassignablePartitionResponse45"))]);
   ("ReassignablePartitionResponse45", [("PartitionIndex", GInt I32); ("ErrorCode", GInt I16); ("ErrorMessage", GString)]);
   ("ListPartitionReassignmentsRequest", [("TimeoutMs", GInt I32); ("Topics", GSlice (GNamed "ListPartitionReassignmentsTopics46"))]);
   ("ListPartitionReassignmentsTopics46", [("Name", GString); ("PartitionIndexes", GSlice (GInt I32))]);
   ("ListPartitionReassignmentsResponse", [("ThrottleTimeMs", GInt I32); ("ErrorCode", GInt I16); ("ErrorMessage", GString); ("Topics", GSlice (GNamed "OngoingTopicReassignment46"))]);
   ("OngoingTopicReassignment46", [("Name", GString); ("Partitions", GSlice (GNamed "OngoingPartitionReassignment46"))]);
   ("OngoingPartitionReassignment46", [("PartitionIndex", GInt I32); ("Replicas", GSlice (GInt I32)); ("AddingReplicas", GSlice (GInt I32)); ("RemovingReplicas", GSlice (GInt I32))]);
   ("OffsetDeleteRequest", [("GroupId", GString); ("Topics", GSlice (GNamed "OffsetDeleteRequestTopic47"))]);
   ("OffsetDeleteRequestTopic47", [("Name", GString); ("Partitions", GSlice (GNamed "OffsetDeleteRequestPartition47"))]);
   ("OffsetDeleteRequestPartition47", [("PartitionIndex", GInt I32)]);
   ("OffsetDeleteResponse", [("ErrorCode", GInt I16); ("ThrottleTimeMs", GInt I32); ("Topics", GSlice (GNamed "OffsetDeleteResponseTopic47"))]);
   ("OffsetDeleteResponseTopic47", [("Name", GString); ("Partitions", GSlice (GNamed "OffsetDeleteResponsePartition47"))]);
   ("OffsetDeleteResponsePartition47", [("PartitionIndex", GInt I32); ("ErrorCode", GInt I16)])]
  []
  [("ProduceRequest.Size", go_ProduceRequest_Size);
   ("ProduceRequest.Encode", go_ProduceRequest_Encode);
   ("ProduceRequest.Decode", go_ProduceRequest_Decode);
   ("TopicProduceData0.Size", go_TopicProduceData0_Size);
   ("TopicProduceData0.Encode", go_TopicProduceData0_Encode);
   ("TopicProduceData0.Decode", go_TopicProduceData0_Decode);
   ("PartitionProduceData0.Size", go_PartitionProduceData0_Size);
   ("PartitionProduceData0.Encode", go_PartitionProduceData0_Encode);
   ("PartitionProduceData0.Decode", go_PartitionProduceData0_Decode);
   ("ProduceResponse.Size", go_ProduceResponse_Size);
   ("ProduceResponse.Encode", go_ProduceResponse_Encode);
   ("ProduceResponse.Decode", go_ProduceResponse_Decode);
   ("TopicProduceResponse0.Size", go_TopicProduceResponse0_Size);
   ("TopicProduceResponse0.Encode", go_TopicProduceResponse0_Encode);
   ("TopicProduceResponse0.Decode", go_TopicProduceResponse0_Decode);
   ("PartitionProduceResponse0.Size", go_PartitionProduceResponse0_Size);
   ("PartitionProduceResponse0.Encode", go_PartitionProduceResponse0_Encode);
   ("PartitionProduceResponse0.Decode", go_PartitionProduceResponse0_Decode);
   ("BatchIndexAndErrorMessage0.Size", go_BatchIndexAndErrorMessage0_Size);
   ("BatchIndexAndErrorMessage0.Encode", go_BatchIndexAndErrorMessage0_Encode);
   ("BatchIndexAndErrorMessage0.Decode", go_BatchIndexAndErrorMessage0_Decode);
   ("RequestHeader.Size", go_RequestHeader_Size);
   ("RequestHeader.Encode", go_RequestHeader_Encode);
   ("RequestHeader.Decode", go_RequestHeader_Decode);
   ("ResponseHeader.Size", go_ResponseHeader_Size);
   ("ResponseHeader.Encode", go_ResponseHeader_Encode);
   ("ResponseHeader.Decode", go_ResponseHeader_Decode);
   ("FetchRequest.Size", go_FetchRequest_Size);
   ("FetchRequest.Encode", go_FetchRequest_Encode);
   ("FetchRequest.Decode", go_FetchRequest_Decode);
   ("FetchableTopic1.Size", go_FetchableTopic1_Size);
   ("FetchableTopic1.Encode", go_FetchableTopic1_Encode);
   ("FetchableTopic1.Decode", go_FetchableTopic1_Decode);
   ("FetchPartition1.Size", go_FetchPartition1_Size);
   ("FetchPartition1.Encode", go_FetchPartition1_Encode);
   ("FetchPartition1.Decode", go_FetchPartition1_Decode);
   ("ForgottenTopic1.Size", go_ForgottenTopic1_Size);
   ("ForgottenTopic1.Encode", go_ForgottenTopic1_Encode);
   ("ForgottenTopic1.Decode", go_ForgottenTopic1_Decode);
   ("FetchResponse.Size", go_FetchResponse_Size);
   ("FetchResponse.Encode", go_FetchResponse_Encode);
   ("FetchResponse.Decode", go_FetchResponse_Decode);
   ("FetchableTopicResponse1.Size", go_FetchableTopicResponse1_Size);
   ("FetchableTopicResponse1.Encode", go_FetchableTopicResponse1_Encode);
   ("FetchableTopicResponse1.Decode", go_FetchableTopicResponse1_Decode);
   ("FetchablePartitionResponse1.Size", go_FetchablePartitionResponse1_Size);
   ("FetchablePartitionResponse1.Encode", go_FetchablePartitionResponse1_Encode);
   ("FetchablePartitionResponse1.Decode", go_FetchablePartitionResponse1_Decode);
   ("AbortedTransaction1.Size", go_AbortedTransaction1_Size);
   ("AbortedTransaction1.Encode", go_AbortedTransaction1_Encode);
   ("AbortedTransaction1.Decode", go_AbortedTransaction1_Decode);
   ("ListOffsetRequest.Size", go_ListOffsetRequest_Size);
   ("ListOffsetRequest.Encode", go_ListOffsetRequest_Encode);
   ("ListOffsetRequest.Decode", go_ListOffsetRequest_Decode);
   ("ListOffsetTopic2.Size", go_ListOffsetTopic2_Size);
   ("ListOffsetTopic2.Encode", go_ListOffsetTopic2_Encode);
   ("ListOffsetTopic2.Decode", go_ListOffsetTopic2_Decode);
   ("ListOffsetPartition2.Size", go_ListOffsetPartition2_Size);
   ("ListOffsetPartition2.Encode", go_ListOffsetPartition2_Encode);
   ("ListOffsetPartition2.Decode", go_ListOffsetPartition2_Decode);
   ("ListOffsetResponse.Size", go_ListOffsetResponse_Size);
   ("ListOffsetResponse.Encode", go_ListOffsetResponse_Encode);
   ("ListOffsetResponse.Decode", go_ListOffsetResponse_Decode);
   ("ListOffsetTopicResponse2.Size", go_ListOffsetTopicResponse2_Size);
   ("ListOffsetTopicResponse2.Encode", go_ListOffsetTopicResponse2_Encode);
   ("ListOffsetTopicResponse2.Decode", go_ListOffsetTopicResponse2_Decode);
   ("ListOffsetPartitionResponse2.Size", go_ListOffsetPartitionResponse2_Size);
   ("ListOffsetPartitionResponse2.Encode", go_ListOffsetPartitionResponse2_Encode);
   ("ListOffsetPartitionResponse2.Decode", go_ListOffsetPartitionResponse2_Decode);
   ("MetadataRequest.Size", go_MetadataRequest_Size);
   ("MetadataRequest.Encode", go_MetadataRequest_Encode);
   ("MetadataRequest.Decode", go_MetadataRequest_Decode);
   ("MetadataRequestTopic3.Size", go_MetadataRequestTopic3_Size);
   ("MetadataRequestTopic3.Encode", go_MetadataRequestTopic3_Encode);
   ("MetadataRequestTopic3.Decode", go_MetadataRequestTopic3_Decode);
   ("MetadataResponse.Size", go_MetadataResponse_Size);
   ("MetadataResponse.Encode", go_MetadataResponse_Encode);
   ("MetadataResponse.Decode", go_MetadataResponse_Decode);
   ("MetadataResponseBroker3.Size", go_MetadataResponseBroker3_Size);
   ("MetadataResponseBroker3.Encode", go_MetadataResponseBroker3_Encode);
   ("MetadataResponseBroker3.Decode", go_MetadataResponseBroker3_Decode);
   ("MetadataResponseTopic3.Size", go_MetadataResponseTopic3_Size);
   ("MetadataResponseTopic3.Encode", go_MetadataResponseTopic3_Encode);
   ("MetadataResponseTopic3.Decode", go_MetadataResponseTopic3_Decode);
   ("MetadataResponsePartition3.Size", go_MetadataResponsePartition3_Size);
   ("MetadataResponsePartition3.Encode", go_MetadataResponsePartition3_Encode);
   ("MetadataResponsePartition3.Decode", go_MetadataResponsePartition3_Decode);
   ("LeaderAndIsrRequest.Size", go_LeaderAndIsrRequest_Size);
   ("LeaderAndIsrRequest.Encode", go_LeaderAndIsrRequest_Encode);
   ("LeaderAndIsrRequest.Decode", go_LeaderAndIsrRequest_Decode);
   ("LeaderAndIsrTopicState4.Size", go_LeaderAndIsrTopicState4_Size);
   ("LeaderAndIsrTopicState4.Encode", go_LeaderAndIsrTopicState4_Encode);
   ("LeaderAndIsrTopicState4.Decode", go_LeaderAndIsrTopicState4_Decode);
   ("LeaderAndIsrLiveLeader4.Size", go_LeaderAndIsrLiveLeader4_Size);
   ("LeaderAndIsrLiveLeader4.Encode", go_LeaderAndIsrLiveLeader4_Encode);
   ("LeaderAndIsrLiveLeader4.Decode", go_LeaderAndIsrLiveLeader4_Decode);
   ("LeaderAndIsrPartitionState4.Size", go_LeaderAndIsrPartitionState4_Size);
   ("LeaderAndIsrPartitionState4.Encode", go_LeaderAndIsrPartitionState4_Encode);
   ("LeaderAndIsrPartitionState4.Decode", go_LeaderAndIsrPartitionState4_Decode);
   ("LeaderAndIsrResponse.Size", go_LeaderAndIsrResponse_Size);
   ("LeaderAndIsrResponse.Encode", go_LeaderAndIsrResponse_Encode);
   ("LeaderAndIsrResponse.Decode", go_LeaderAndIsrResponse_Decode);
   ("LeaderAndIsrPartitionError4.Size", go_LeaderAndIsrPartitionError4_Size);
   ("LeaderAndIsrPartitionError4.Encode", go_LeaderAndIsrPartitionError4_Encode);
   ("LeaderAndIsrPartitionError4.Decode", go_LeaderAndIsrPartitionError4_Decode);
   ("StopReplicaRequest.Size", go_StopReplicaRequest_Size);
   ("StopReplicaRequest.Encode", go_StopReplicaRequest_Encode);
   ("StopReplicaRequest.Decode", go_StopReplicaRequest_Decode);
   ("StopReplicaPartitionV05.Size", go_StopReplicaPartitionV05_Size);
   ("StopReplicaPartitionV05.Encode", go_StopReplicaPartitionV05_Encode);
   ("StopReplicaPartitionV05.Decode", go_StopReplicaPartitionV05_Decode);
   ("StopReplicaTopic5.Size", go_StopReplicaTopic5_Size);
   ("StopReplicaTopic5.Encode", go_StopReplicaTopic5_Encode);
   ("StopReplicaTopic5.Decode", go_StopReplicaTopic5_Decode);
   ("StopReplicaResponse.Size", go_StopReplicaResponse_Size);
   ("StopReplicaResponse.Encode", go_StopReplicaResponse_Encode);
   ("StopReplicaResponse.Decode", go_StopReplicaResponse_Decode);
   ("StopReplicaPartitionError5.Size", go_StopReplicaPartitionError5_Size);
   ("StopReplicaPartitionError5.Encode", go_StopReplicaPartitionError5_Encode);
   ("StopReplicaPartitionError5.Decode", go_StopReplicaPartitionError5_Decode);
   ("UpdateMetadataRequest.Size", go_UpdateMetadataRequest_Size);
   ("UpdateMetadataRequest.Encode", go_UpdateMetadataRequest_Encode);
   ("UpdateMetadataRequest.Decode", go_UpdateMetadataRequest_Decode);
   ("UpdateMetadataTopicState6.Size", go_UpdateMetadataTopicState6_Size);
   ("UpdateMetadataTopicState6.Encode", go_UpdateMetadataTopicState6_Encode);
   ("UpdateMetadataTopicState6.Decode", go_UpdateMetadataTopicState6_Decode);
   ("UpdateMetadataBroker6.Size", go_UpdateMetadataBroker6_Size);
   ("UpdateMetadataBroker6.Encode", go_UpdateMetadataBroker6_Encode);
   ("UpdateMetadataBroker6.Decode", go_UpdateMetadataBroker6_Decode);
   ("UpdateMetadataEndpoint6.Size", go_UpdateMetadataEndpoint6_Size);
   ("UpdateMetadataEndpoint6.Encode", go_UpdateMetadataEndpoint6_Encode);
   ("UpdateMetadataEndpoint6.Decode", go_UpdateMetadataEndpoint6_Decode);
   ("UpdateMetadataPartitionState6.Size", go_UpdateMetadataPartitionState6_Size);
   ("UpdateMetadataPartitionState6.Encode", go_UpdateMetadataPartitionState6_Encode);
   ("UpdateMetadataPartitionState6.Decode", go_UpdateMetadataPartitionState6_Decode);
   ("UpdateMetadataResponse.Size", go_UpdateMetadataResponse_Size);
   ("UpdateMetadataResponse.Encode", go_UpdateMetadataResponse_Encode);
   ("UpdateMetadataResponse.Decode", go_UpdateMetadataResponse_Decode);
   ("ControlledShutdownRequest.Size", go_ControlledShutdownRequest_Size);
   ("ControlledShutdownRequest.Encode", go_ControlledShutdownRequest_Encode);
   ("ControlledShutdownRequest.Decode", go_ControlledShutdownRequest_Decode);
   ("ControlledShutdownResponse.Size", go_ControlledShutdownResponse_Size);
   ("ControlledShutdownResponse.Encode", go_ControlledShutdownResponse_Encode);
   ("ControlledShutdownResponse.Decode", go_ControlledShutdownResponse_Decode);
   ("RemainingPartition7.Size", go_RemainingPartition7_Size);
   ("RemainingPartition7.Encode", go_RemainingPartition7_Encode);
   ("RemainingPartition7.Decode", go_RemainingPartition7_Decode);
   ("OffsetCommitRequest.Size", go_OffsetCommitRequest_Size);
   ("OffsetCommitRequest.Encode", go_OffsetCommitRequest_Encode);
   ("OffsetCommitRequest.Decode", go_OffsetCommitRequest_Decode);
   ("OffsetCommitRequestTopic8.Size", go_OffsetCommitRequestTopic8_Size);
   ("OffsetCommitRequestTopic8.Encode", go_OffsetCommitRequestTopic8_Encode);
   ("OffsetCommitRequestTopic8.Decode", go_OffsetCommitRequestTopic8_Decode);
   ("OffsetCommitRequestPartition8.Size", go_OffsetCommitRequestPartition8_Size);
   ("OffsetCommitRequestPartition8.Encode", go_OffsetCommitRequestPartition8_Encode);
   ("OffsetCommitRequestPartition8.Decode", go_OffsetCommitRequestPartition8_Decode);
   ("OffsetCommitResponse.Size", go_OffsetCommitResponse_Size);
   ("OffsetCommitResponse.Encode", go_OffsetCommitResponse_Encode);
   ("OffsetCommitResponse.Decode", go_OffsetCommitResponse_Decode);
   ("OffsetCommitResponseTopic8.Size", go_OffsetCommitResponseTopic8_Size);
   ("OffsetCommitResponseTopic8.Encode", go_OffsetCommitResponseTopic8_Encode);
   ("OffsetCommitResponseTopic8.Decode", go_OffsetCommitResponseTopic8_Decode);
   ("OffsetCommitResponsePartition8.Size", go_OffsetCommitResponsePartition8_Size);
   ("OffsetCommitResponsePartition8.Encode", go_OffsetCommitResponsePartition8_Encode);
   ("OffsetCommitResponsePartition8.Decode", go_OffsetCommitResponsePartition8_Decode);
   ("OffsetFetchRequest.Size", go_OffsetFetchRequest_Size);
   ("OffsetFetchRequest.Encode", go_OffsetFetchRequest_Encode);
   ("OffsetFetchRequest.Decode", go_OffsetFetchRequest_Decode);
   ("OffsetFetchRequestTopic9.Size", go_OffsetFetchRequestTopic9_Size);
   ("OffsetFetchRequestTopic9.Encode", go_OffsetFetchRequestTopic9_Encode);
   ("OffsetFetchRequestTopic9.Decode", go_OffsetFetchRequestTopic9_Decode);
   ("OffsetFetchResponse.Size", go_OffsetFetchResponse_Size);
   ("OffsetFetchResponse.Encode", go_OffsetFetchResponse_Encode);
   ("OffsetFetchResponse.Decode", go_OffsetFetchResponse_Decode);
   ("OffsetFetchResponseTopic9.Size", go_OffsetFetchResponseTopic9_Size);
   ("OffsetFetchResponseTopic9.Encode", go_OffsetFetchResponseTopic9_Encode);
   ("OffsetFetchResponseTopic9.Decode", go_OffsetFetchResponseTopic9_Decode);
   ("OffsetFetchResponsePartition9.Size", go_OffsetFetchResponsePartition9_Size);
   ("OffsetFetchResponsePartition9.Encode", go_OffsetFetchResponsePartition9_Encode);
   ("OffsetFetchResponsePartition9.Decode", go_OffsetFetchResponsePartition9_Decode);
   ("FindCoordinatorRequest.Size", go_FindCoordinatorRequest_Size);
   ("FindCoordinatorRequest.Encode", go_FindCoordinatorRequest_Encode);
   ("FindCoordinatorRequest.Decode", go_FindCoordinatorRequest_Decode);
   ("FindCoordinatorResponse.Size", go_FindCoordinatorResponse_Size);
   ("FindCoordinatorResponse.Encode", go_FindCoordinatorResponse_Encode);
   ("FindCoordinatorResponse.Decode", go_FindCoordinatorResponse_Decode);
   ("JoinGroupRequest.Size", go_JoinGroupRequest_Size);
   ("JoinGroupRequest.Encode", go_JoinGroupRequest_Encode);
   ("JoinGroupRequest.Decode", go_JoinGroupRequest_Decode);
   ("JoinGroupRequestProtocol11.Size", go_JoinGroupRequestProtocol11_Size);
   ("JoinGroupRequestProtocol11.Encode", go_JoinGroupRequestProtocol11_Encode);
   ("JoinGroupRequestProtocol11.Decode", go_JoinGroupRequestProtocol11_Decode);
   ("JoinGroupResponse.Size", go_JoinGroupResponse_Size);
   ("JoinGroupResponse.Encode", go_JoinGroupResponse_Encode);
   ("JoinGroupResponse.Decode", go_JoinGroupResponse_Decode);
   ("JoinGroupResponseMember11.Size", go_JoinGroupResponseMember11_Size);
   ("JoinGroupResponseMember11.Encode", go_JoinGroupResponseMember11_Encode);
   ("JoinGroupResponseMember11.Decode", go_JoinGroupResponseMember11_Decode);
   ("HeartbeatRequest.Size", go_HeartbeatRequest_Size);
   ("HeartbeatRequest.Encode", go_HeartbeatRequest_Encode);
   ("HeartbeatRequest.Decode", go_HeartbeatRequest_Decode);
   ("HeartbeatResponse.Size", go_HeartbeatResponse_Size);
   ("HeartbeatResponse.Encode", go_HeartbeatResponse_Encode);
   ("HeartbeatResponse.Decode", go_HeartbeatResponse_Decode);
   ("LeaveGroupRequest.Size", go_LeaveGroupRequest_Size);
   ("LeaveGroupRequest.Encode", go_LeaveGroupRequest_Encode);
   ("LeaveGroupRequest.Decode", go_LeaveGroupRequest_Decode);
   ("MemberIdentity13.Size", go_MemberIdentity13_Size);
   ("MemberIdentity13.Encode", go_MemberIdentity13_Encode);
   ("MemberIdentity13.Decode", go_MemberIdentity13_Decode);
   ("LeaveGroupResponse.Size", go_LeaveGroupResponse_Size);
   ("LeaveGroupResponse.Encode", go_LeaveGroupResponse_Encode);
   ("LeaveGroupResponse.Decode", go_LeaveGroupResponse_Decode);
   ("MemberResponse13.Size", go_MemberResponse13_Size);
   ("MemberResponse13.Encode", go_MemberResponse13_Encode);
   ("MemberResponse13.Decode", go_MemberResponse13_Decode);
   ("SyncGroupRequest.Size", go_SyncGroupRequest_Size);
   ("SyncGroupRequest.Encode", go_SyncGroupRequest_Encode);
   ("SyncGroupRequest.Decode", go_SyncGroupRequest_Decode);
   ("SyncGroupRequestAssignment14.Size", go_SyncGroupRequestAssignment14_Size);
   ("SyncGroupRequestAssignment14.Encode", go_SyncGroupRequestAssignment14_Encode);
   ("SyncGroupRequestAssignment14.Decode", go_SyncGroupRequestAssignment14_Decode);
   ("SyncGroupResponse.Size", go_SyncGroupResponse_Size);
   ("SyncGroupResponse.Encode", go_SyncGroupResponse_Encode);
   ("SyncGroupResponse.Decode", go_SyncGroupResponse_Decode);
   ("DescribeGroupsRequest.Size", go_DescribeGroupsRequest_Size);
   ("DescribeGroupsRequest.Encode", go_DescribeGroupsRequest_Encode);
   ("DescribeGroupsRequest.Decode", go_DescribeGroupsRequest_Decode);
   ("DescribeGroupsResponse.Size", go_DescribeGroupsResponse_Size);
   ("DescribeGroupsResponse.Encode", go_DescribeGroupsResponse_Encode);
   ("DescribeGroupsResponse.Decode", go_DescribeGroupsResponse_Decode);
   ("DescribedGroup15.Size", go_DescribedGroup15_Size);
   ("DescribedGroup15.Encode", go_DescribedGroup15_Encode);
   ("DescribedGroup15.Decode", go_DescribedGroup15_Decode);
   ("DescribedGroupMember15.Size", go_DescribedGroupMember15_Size);
   ("DescribedGroupMember15.Encode", go_DescribedGroupMember15_Encode);
   ("DescribedGroupMember15.Decode", go_DescribedGroupMember15_Decode);
   ("ListGroupsRequest.Size", go_ListGroupsRequest_Size);
   ("ListGroupsRequest.Encode", go_ListGroupsRequest_Encode);
   ("ListGroupsRequest.Decode", go_ListGroupsRequest_Decode);
   ("ListGroupsResponse.Size", go_ListGroupsResponse_Size);
   ("ListGroupsResponse.Encode", go_ListGroupsResponse_Encode);
   ("ListGroupsResponse.Decode", go_ListGroupsResponse_Decode);
   ("ListedGroup16.Size", go_ListedGroup16_Size);
   ("ListedGroup16.Encode", go_ListedGroup16_Encode);
   ("ListedGroup16.Decode", go_ListedGroup16_Decode);
   ("SaslHandshakeRequest.Size", go_SaslHandshakeRequest_Size);
   ("SaslHandshakeRequest.Encode", go_SaslHandshakeRequest_Encode);
   ("SaslHandshakeRequest.Decode", go_SaslHandshakeRequest_Decode);
   ("SaslHandshakeResponse.Size", go_SaslHandshakeResponse_Size);
   ("SaslHandshakeResponse.Encode", go_SaslHandshakeResponse_Encode);
   ("SaslHandshakeResponse.Decode", go_SaslHandshakeResponse_Decode);
   ("ApiVersionsRequest.Size", go_ApiVersionsRequest_Size);
   ("ApiVersionsRequest.Encode", go_ApiVersionsRequest_Encode);
   ("ApiVersionsRequest.Decode", go_ApiVersionsRequest_Decode);
   ("ApiVersionsResponse.Size", go_ApiVersionsResponse_Size);
   ("ApiVersionsResponse.Encode", go_ApiVersionsResponse_Encode);
   ("ApiVersionsResponse.Decode", go_ApiVersionsResponse_Decode);
   ("ApiVersionsResponseKey18.Size", go_ApiVersionsResponseKey18_Size);
   ("ApiVersionsResponseKey18.Encode", go_ApiVersionsResponseKey18_Encode);
   ("ApiVersionsResponseKey18.Decode", go_ApiVersionsResponseKey18_Decode);
   ("CreateTopicsRequest.Size", go_CreateTopicsRequest_Size);
   ("CreateTopicsRequest.Encode", go_CreateTopicsRequest_Encode);
   ("CreateTopicsRequest.Decode", go_CreateTopicsRequest_Decode);
   ("CreatableTopic19.Size", go_CreatableTopic19_Size);
   ("CreatableTopic19.Encode", go_CreatableTopic19_Encode);
   ("CreatableTopic19.Decode", go_CreatableTopic19_Decode);
   ("CreatableReplicaAssignment19.Size", go_CreatableReplicaAssignment19_Size);
   ("CreatableReplicaAssignment19.Encode", go_CreatableReplicaAssignment19_Encode);
   ("CreatableReplicaAssignment19.Decode", go_CreatableReplicaAssignment19_Decode);
   ("CreateableTopicConfig19.Size", go_CreateableTopicConfig19_Size);
   ("CreateableTopicConfig19.Encode", go_CreateableTopicConfig19_Encode);
   ("CreateableTopicConfig19.Decode", go_CreateableTopicConfig19_Decode);
   ("CreateTopicsResponse.Size", go_CreateTopicsResponse_Size);
   ("CreateTopicsResponse.Encode", go_CreateTopicsResponse_Encode);
   ("CreateTopicsResponse.Decode", go_CreateTopicsResponse_Decode);
   ("CreatableTopicResult19.Size", go_CreatableTopicResult19_Size);
   ("CreatableTopicResult19.Encode", go_CreatableTopicResult19_Encode);
   ("CreatableTopicResult19.Decode", go_CreatableTopicResult19_Decode);
   ("CreatableTopicConfigs19.Size", go_CreatableTopicConfigs19_Size);
   ("CreatableTopicConfigs19.Encode", go_CreatableTopicConfigs19_Encode);
   ("CreatableTopicConfigs19.Decode", go_CreatableTopicConfigs19_Decode);
   ("DeleteTopicsRequest.Size", go_DeleteTopicsRequest_Size);
   ("DeleteTopicsRequest.Encode", go_DeleteTopicsRequest_Encode);
   ("DeleteTopicsRequest.Decode", go_DeleteTopicsRequest_Decode);
   ("DeleteTopicsResponse.Size", go_DeleteTopicsResponse_Size);
   ("DeleteTopicsResponse.Encode", go_DeleteTopicsResponse_Encode);
   ("DeleteTopicsResponse.Decode", go_DeleteTopicsResponse_Decode);
   ("DeletableTopicResult20.Size", go_DeletableTopicResult20_Size);
   ("DeletableTopicResult20.Encode", go_DeletableTopicResult20_Encode);
   ("DeletableTopicResult20.Decode", go_DeletableTopicResult20_Decode);
   ("DeleteRecordsRequest.Size", go_DeleteRecordsRequest_Size);
   ("DeleteRecordsRequest.Encode", go_DeleteRecordsRequest_Encode);
   ("DeleteRecordsRequest.Decode", go_DeleteRecordsRequest_Decode);
   ("DeleteRecordsTopic21.Size", go_DeleteRecordsTopic21_Size);
   ("DeleteRecordsTopic21.Encode", go_DeleteRecordsTopic21_Encode);
   ("DeleteRecordsTopic21.Decode", go_DeleteRecordsTopic21_Decode);
   ("DeleteRecordsPartition21.Size", go_DeleteRecordsPartition21_Size);
   ("DeleteRecordsPartition21.Encode", go_DeleteRecordsPartition21_Encode);
   ("DeleteRecordsPartition21.Decode", go_DeleteRecordsPartition21_Decode);
   ("DeleteRecordsResponse.Size", go_DeleteRecordsResponse_Size);
   ("DeleteRecordsResponse.Encode", go_DeleteRecordsResponse_Encode);
   ("DeleteRecordsResponse.Decode", go_DeleteRecordsResponse_Decode);
   ("DeleteRecordsTopicResult21.Size", go_DeleteRecordsTopicResult21_Size);
   ("DeleteRecordsTopicResult21.Encode", go_DeleteRecordsTopicResult21_Encode);
   ("DeleteRecordsTopicResult21.Decode", go_DeleteRecordsTopicResult21_Decode);
   ("DeleteRecordsPartitionResult21.Size", go_DeleteRecordsPartitionResult21_Size);
   ("DeleteRecordsPartitionResult21.Encode", go_DeleteRecordsPartitionResult21_Encode);
   ("DeleteRecordsPartitionResult21.Decode", go_DeleteRecordsPartitionResult21_Decode);
   ("InitProducerIdRequest.Size", go_InitProducerIdRequest_Size);
   ("InitProducerIdRequest.Encode", go_InitProducerIdRequest_Encode);
   ("InitProducerIdRequest.Decode", go_InitProducerIdRequest_Decode);
   ("InitProducerIdResponse.Size", go_InitProducerIdResponse_Size);
   ("InitProducerIdResponse.Encode", go_InitProducerIdResponse_Encode);
   ("InitProducerIdResponse.Decode", go_InitProducerIdResponse_Decode);
   ("OffsetForLeaderEpochRequest.Size", go_OffsetForLeaderEpochRequest_Size);
   ("OffsetForLeaderEpochRequest.Encode", go_OffsetForLeaderEpochRequest_Encode);
   ("OffsetForLeaderEpochRequest.Decode", go_OffsetForLeaderEpochRequest_Decode);
   ("OffsetForLeaderTopic23.Size", go_OffsetForLeaderTopic23_Size);
   ("OffsetForLeaderTopic23.Encode", go_OffsetForLeaderTopic23_Encode);
   ("OffsetForLeaderTopic23.Decode", go_OffsetForLeaderTopic23_Decode);
   ("OffsetForLeaderPartition23.Size", go_OffsetForLeaderPartition23_Size);
   ("OffsetForLeaderPartition23.Encode", go_OffsetForLeaderPartition23_Encode);
   ("OffsetForLeaderPartition23.Decode", go_OffsetForLeaderPartition23_Decode);
   ("OffsetForLeaderEpochResponse.Size", go_OffsetForLeaderEpochResponse_Size);
   ("OffsetForLeaderEpochResponse.Encode", go_OffsetForLeaderEpochResponse_Encode);
   ("OffsetForLeaderEpochResponse.Decode", go_OffsetForLeaderEpochResponse_Decode);
   ("OffsetForLeaderTopicResult23.Size", go_OffsetForLeaderTopicResult23_Size);
   ("OffsetForLeaderTopicResult23.Encode", go_OffsetForLeaderTopicResult23_Encode);
   ("OffsetForLeaderTopicResult23.Decode", go_OffsetForLeaderTopicResult23_Decode);
   ("OffsetForLeaderPartitionResult23.Size", go_OffsetForLeaderPartitionResult23_Size);
   ("OffsetForLeaderPartitionResult23.Encode", go_OffsetForLeaderPartitionResult23_Encode);
   ("OffsetForLeaderPartitionResult23.Decode", go_OffsetForLeaderPartitionResult23_Decode);
   ("AddPartitionsToTxnRequest.Size", go_AddPartitionsToTxnRequest_Size);
   ("AddPartitionsToTxnRequest.Encode", go_AddPartitionsToTxnRequest_Encode);
   ("AddPartitionsToTxnRequest.Decode", go_AddPartitionsToTxnRequest_Decode);
   ("AddPartitionsToTxnTopic24.Size", go_AddPartitionsToTxnTopic24_Size);
   ("AddPartitionsToTxnTopic24.Encode", go_AddPartitionsToTxnTopic24_Encode);
   ("AddPartitionsToTxnTopic24.Decode", go_AddPartitionsToTxnTopic24_Decode);
   ("AddPartitionsToTxnResponse.Size", go_AddPartitionsToTxnResponse_Size);
   ("AddPartitionsToTxnResponse.Encode", go_AddPartitionsToTxnResponse_Encode);
   ("AddPartitionsToTxnResponse.Decode", go_AddPartitionsToTxnResponse_Decode);
   ("AddPartitionsToTxnTopicResult24.Size", go_AddPartitionsToTxnTopicResult24_Size);
   ("AddPartitionsToTxnTopicResult24.Encode", go_AddPartitionsToTxnTopicResult24_Encode);
   ("AddPartitionsToTxnTopicResult24.Decode", go_AddPartitionsToTxnTopicResult24_Decode);
   ("AddPartitionsToTxnPartitionResult24.Size", go_AddPartitionsToTxnPartitionResult24_Size);
   ("AddPartitionsToTxnPartitionResult24.Encode", go_AddPartitionsToTxnPartitionResult24_Encode);
   ("AddPartitionsToTxnPartitionResult24.Decode", go_AddPartitionsToTxnPartitionResult24_Decode);
   ("AddOffsetsToTxnRequest.Size", go_AddOffsetsToTxnRequest_Size);
   ("AddOffsetsToTxnRequest.Encode", go_AddOffsetsToTxnRequest_Encode);
   ("AddOffsetsToTxnRequest.Decode", go_AddOffsetsToTxnRequest_Decode);
   ("AddOffsetsToTxnResponse.Size", go_AddOffsetsToTxnResponse_Size);
   ("AddOffsetsToTxnResponse.Encode", go_AddOffsetsToTxnResponse_Encode);
   ("AddOffsetsToTxnResponse.Decode", go_AddOffsetsToTxnResponse_Decode);
   ("EndTxnRequest.Size", go_EndTxnRequest_Size);
   ("EndTxnRequest.Encode", go_EndTxnRequest_Encode);
   ("EndTxnRequest.Decode", go_EndTxnRequest_Decode);
   ("EndTxnResponse.Size", go_EndTxnResponse_Size);
   ("EndTxnResponse.Encode", go_EndTxnResponse_Encode);
   ("EndTxnResponse.Decode", go_EndTxnResponse_Decode);
   ("WriteTxnMarkersRequest.Size", go_WriteTxnMarkersRequest_Size);
   ("WriteTxnMarkersRequest.Encode", go_WriteTxnMarkersRequest_Encode);
   ("WriteTxnMarkersRequest.Decode", go_WriteTxnMarkersRequest_Decode);
   ("WritableTxnMarker27.Size", go_WritableTxnMarker27_Size);
   ("WritableTxnMarker27.Encode", go_WritableTxnMarker27_Encode);
   ("WritableTxnMarker27.Decode", go_WritableTxnMarker27_Decode);
   ("WritableTxnMarkerTopic27.Size", go_WritableTxnMarkerTopic27_Size);
   ("WritableTxnMarkerTopic27.Encode", go_WritableTxnMarkerTopic27_Encode);
   ("WritableTxnMarkerTopic27.Decode", go_WritableTxnMarkerTopic27_Decode);
   ("WriteTxnMarkersResponse.Size", go_WriteTxnMarkersResponse_Size);
   ("WriteTxnMarkersResponse.Encode", go_WriteTxnMarkersResponse_Encode);
   ("WriteTxnMarkersResponse.Decode", go_WriteTxnMarkersResponse_Decode);
   ("WritableTxnMarkerResult27.Size", go_WritableTxnMarkerResult27_Size);
   ("WritableTxnMarkerResult27.Encode", go_WritableTxnMarkerResult27_Encode);
   ("WritableTxnMarkerResult27.Decode", go_WritableTxnMarkerResult27_Decode);
   ("WritableTxnMarkerTopicResult27.Size", go_WritableTxnMarkerTopicResult27_Size);
   ("WritableTxnMarkerTopicResult27.Encode", go_WritableTxnMarkerTopicResult27_Encode);
   ("WritableTxnMarkerTopicResult27.Decode", go_WritableTxnMarkerTopicResult27_Decode);
   ("WritableTxnMarkerPartitionResult27.Size", go_WritableTxnMarkerPartitionResult27_Size);
   ("WritableTxnMarkerPartitionResult27.Encode", go_WritableTxnMarkerPartitionResult27_Encode);
   ("WritableTxnMarkerPartitionResult27.Decode", go_WritableTxnMarkerPartitionResult27_Decode);
   ("TxnOffsetCommitRequest.Size", go_TxnOffsetCommitRequest_Size);
   ("TxnOffsetCommitRequest.Encode", go_TxnOffsetCommitRequest_Encode);
   ("TxnOffsetCommitRequest.Decode", go_TxnOffsetCommitRequest_Decode);
   ("TxnOffsetCommitRequestTopic28.Size", go_TxnOffsetCommitRequestTopic28_Size);
   ("TxnOffsetCommitRequestTopic28.Encode", go_TxnOffsetCommitRequestTopic28_Encode);
   ("TxnOffsetCommitRequestTopic28.Decode", go_TxnOffsetCommitRequestTopic28_Decode);
   ("TxnOffsetCommitRequestPartition28.Size", go_TxnOffsetCommitRequestPartition28_Size);
   ("TxnOffsetCommitRequestPartition28.Encode", go_TxnOffsetCommitRequestPartition28_Encode);
   ("TxnOffsetCommitRequestPartition28.Decode", go_TxnOffsetCommitRequestPartition28_Decode);
   ("TxnOffsetCommitResponse.Size", go_TxnOffsetCommitResponse_Size);
   ("TxnOffsetCommitResponse.Encode", go_TxnOffsetCommitResponse_Encode);
   ("TxnOffsetCommitResponse.Decode", go_TxnOffsetCommitResponse_Decode);
   ("TxnOffsetCommitResponseTopic28.Size", go_TxnOffsetCommitResponseTopic28_Size);
   ("TxnOffsetCommitResponseTopic28.Encode", go_TxnOffsetCommitResponseTopic28_Encode);
   ("TxnOffsetCommitResponseTopic28.Decode", go_TxnOffsetCommitResponseTopic28_Decode);
   ("TxnOffsetCommitResponsePartition28.Size", go_TxnOffsetCommitResponsePartition28_Size);
   ("TxnOffsetCommitResponsePartition28.Encode", go_TxnOffsetCommitResponsePartition28_Encode);
   ("TxnOffsetCommitResponsePartition28.Decode", go_TxnOffsetCommitResponsePartition28_Decode);
   ("DescribeAclsRequest.Size", go_DescribeAclsRequest_Size);
   ("DescribeAclsRequest.Encode", go_DescribeAclsRequest_Encode);
   ("DescribeAclsRequest.Decode", go_DescribeAclsRequest_Decode);
   ("DescribeAclsResponse.Size", go_DescribeAclsResponse_Size);
   ("DescribeAclsResponse.Encode", go_DescribeAclsResponse_Encode);
   ("DescribeAclsResponse.Decode", go_DescribeAclsResponse_Decode);
   ("DescribeAclsResource29.Size", go_DescribeAclsResource29_Size);
   ("DescribeAclsResource29.Encode", go_DescribeAclsResource29_Encode);
   ("DescribeAclsResource29.Decode", go_DescribeAclsResource29_Decode);
   ("AclDescription29.Size", go_AclDescription29_Size);
   ("AclDescription29.Encode", go_AclDescription29_Encode);
   ("AclDescription29.Decode", go_AclDescription29_Decode);
   ("CreateAclsRequest.Size", go_CreateAclsRequest_Size);
   ("CreateAclsRequest.Encode", go_CreateAclsRequest_Encode);
   ("CreateAclsRequest.Decode", go_CreateAclsRequest_Decode);
   ("CreatableAcl30.Size", go_CreatableAcl30_Size);
   ("CreatableAcl30.Encode", go_CreatableAcl30_Encode);
   ("CreatableAcl30.Decode", go_CreatableAcl30_Decode);
   ("CreateAclsResponse.Size", go_CreateAclsResponse_Size);
   ("CreateAclsResponse.Encode", go_CreateAclsResponse_Encode);
   ("CreateAclsResponse.Decode", go_CreateAclsResponse_Decode);
   ("CreatableAclResult30.Size", go_CreatableAclResult30_Size);
   ("CreatableAclResult30.Encode", go_CreatableAclResult30_Encode);
   ("CreatableAclResult30.Decode", go_CreatableAclResult30_Decode);
   ("DeleteAclsRequest.Size", go_DeleteAclsRequest_Size);
   ("DeleteAclsRequest.Encode", go_DeleteAclsRequest_Encode);
   ("DeleteAclsRequest.Decode", go_DeleteAclsRequest_Decode);
   ("DeleteAclsFilter31.Size", go_DeleteAclsFilter31_Size);
   ("DeleteAclsFilter31.Encode", go_DeleteAclsFilter31_Encode);
   ("DeleteAclsFilter31.Decode", go_DeleteAclsFilter31_Decode);
   ("DeleteAclsResponse.Size", go_DeleteAclsResponse_Size);
   ("DeleteAclsResponse.Encode", go_DeleteAclsResponse_Encode);
   ("DeleteAclsResponse.Decode", go_DeleteAclsResponse_Decode);
   ("DeleteAclsFilterResult31.Size", go_DeleteAclsFilterResult31_Size);
   ("DeleteAclsFilterResult31.Encode", go_DeleteAclsFilterResult31_Encode);
   ("DeleteAclsFilterResult31.Decode", go_DeleteAclsFilterResult31_Decode);
   ("DeleteAclsMatchingAcl31.Size", go_DeleteAclsMatchingAcl31_Size);
   ("DeleteAclsMatchingAcl31.Encode", go_DeleteAclsMatchingAcl31_Encode);
   ("DeleteAclsMatchingAcl31.Decode", go_DeleteAclsMatchingAcl31_Decode);
   ("DescribeConfigsRequest.Size", go_DescribeConfigsRequest_Size);
   ("DescribeConfigsRequest.Encode", go_DescribeConfigsRequest_Encode);
   ("DescribeConfigsRequest.Decode", go_DescribeConfigsRequest_Decode);
   ("DescribeConfigsResource32.Size", go_DescribeConfigsResource32_Size);
   ("DescribeConfigsResource32.Encode", go_DescribeConfigsResource32_Encode);
   ("DescribeConfigsResource32.Decode", go_DescribeConfigsResource32_Decode);
   ("DescribeConfigsResponse.Size", go_DescribeConfigsResponse_Size);
   ("DescribeConfigsResponse.Encode", go_DescribeConfigsResponse_Encode);
   ("DescribeConfigsResponse.Decode", go_DescribeConfigsResponse_Decode);
   ("DescribeConfigsResult32.Size", go_DescribeConfigsResult32_Size);
   ("DescribeConfigsResult32.Encode", go_DescribeConfigsResult32_Encode);
   ("DescribeConfigsResult32.Decode", go_DescribeConfigsResult32_Decode);
   ("DescribeConfigsResourceResult32.Size", go_DescribeConfigsResourceResult32_Size);
   ("DescribeConfigsResourceResult32.Encode", go_DescribeConfigsResourceResult32_Encode);
   ("DescribeConfigsResourceResult32.Decode", go_DescribeConfigsResourceResult32_Decode);
   ("DescribeConfigsSynonym32.Size", go_DescribeConfigsSynonym32_Size);
   ("DescribeConfigsSynonym32.Encode", go_DescribeConfigsSynonym32_Encode);
   ("DescribeConfigsSynonym32.Decode", go_DescribeConfigsSynonym32_Decode);
   ("AlterConfigsRequest.Size", go_AlterConfigsRequest_Size);
   ("AlterConfigsRequest.Encode", go_AlterConfigsRequest_Encode);
   ("AlterConfigsRequest.Decode", go_AlterConfigsRequest_Decode);
   ("AlterConfigsResource33.Size", go_AlterConfigsResource33_Size);
   ("AlterConfigsResource33.Encode", go_AlterConfigsResource33_Encode);
   ("AlterConfigsResource33.Decode", go_AlterConfigsResource33_Decode);
   ("AlterableConfig33.Size", go_AlterableConfig33_Size);
   ("AlterableConfig33.Encode", go_AlterableConfig33_Encode);
   ("AlterableConfig33.Decode", go_AlterableConfig33_Decode);
   ("AlterConfigsResponse.Size", go_AlterConfigsResponse_Size);
   ("AlterConfigsResponse.Encode", go_AlterConfigsResponse_Encode);
   ("AlterConfigsResponse.Decode", go_AlterConfigsResponse_Decode);
   ("AlterConfigsResourceResponse33.Size", go_AlterConfigsResourceResponse33_Size);
   ("AlterConfigsResourceResponse33.Encode", go_AlterConfigsResourceResponse33_Encode);
   ("AlterConfigsResourceResponse33.Decode", go_AlterConfigsResourceResponse33_Decode);
   ("AlterReplicaLogDirsRequest.Size", go_AlterReplicaLogDirsRequest_Size);
   ("AlterReplicaLogDirsRequest.Encode", go_AlterReplicaLogDirsRequest_Encode);
   ("AlterReplicaLogDirsRequest.Decode", go_AlterReplicaLogDirsRequest_Decode);
   ("AlterReplicaLogDir34.Size", go_AlterReplicaLogDir34_Size);
   ("AlterReplicaLogDir34.Encode", go_AlterReplicaLogDir34_Encode);
   ("AlterReplicaLogDir34.Decode", go_AlterReplicaLogDir34_Decode);
   ("AlterReplicaLogDirTopic34.Size", go_AlterReplicaLogDirTopic34_Size);
   ("AlterReplicaLogDirTopic34.Encode", go_AlterReplicaLogDirTopic34_Encode);
   ("AlterReplicaLogDirTopic34.Decode", go_AlterReplicaLogDirTopic34_Decode);
   ("AlterReplicaLogDirsResponse.Size", go_AlterReplicaLogDirsResponse_Size);
   ("AlterReplicaLogDirsResponse.Encode", go_AlterReplicaLogDirsResponse_Encode);
   ("AlterReplicaLogDirsResponse.Decode", go_AlterReplicaLogDirsResponse_Decode);
   ("AlterReplicaLogDirTopicResult34.Size", go_AlterReplicaLogDirTopicResult34_Size);
   ("AlterReplicaLogDirTopicResult34.Encode", go_AlterReplicaLogDirTopicResult34_Encode);
   ("AlterReplicaLogDirTopicResult34.Decode", go_AlterReplicaLogDirTopicResult34_Decode);
   ("AlterReplicaLogDirPartitionResult34.Size", go_AlterReplicaLogDirPartitionResult34_Size);
   ("AlterReplicaLogDirPartitionResult34.Encode", go_AlterReplicaLogDirPartitionResult34_Encode);
   ("AlterReplicaLogDirPartitionResult34.Decode", go_AlterReplicaLogDirPartitionResult34_Decode);
   ("DescribeLogDirsRequest.Size", go_DescribeLogDirsRequest_Size);
   ("DescribeLogDirsRequest.Encode", go_DescribeLogDirsRequest_Encode);
   ("DescribeLogDirsRequest.Decode", go_DescribeLogDirsRequest_Decode);
   ("DescribableLogDirTopic35.Size", go_DescribableLogDirTopic35_Size);
   ("DescribableLogDirTopic35.Encode", go_DescribableLogDirTopic35_Encode);
   ("DescribableLogDirTopic35.Decode", go_DescribableLogDirTopic35_Decode);
   ("DescribeLogDirsResponse.Size", go_DescribeLogDirsResponse_Size);
   ("DescribeLogDirsResponse.Encode", go_DescribeLogDirsResponse_Encode);
   ("DescribeLogDirsResponse.Decode", go_DescribeLogDirsResponse_Decode);
   ("DescribeLogDirsResult35.Size", go_DescribeLogDirsResult35_Size);
   ("DescribeLogDirsResult35.Encode", go_DescribeLogDirsResult35_Encode);
   ("DescribeLogDirsResult35.Decode", go_DescribeLogDirsResult35_Decode);
   ("DescribeLogDirsTopic35.Size", go_DescribeLogDirsTopic35_Size);
   ("DescribeLogDirsTopic35.Encode", go_DescribeLogDirsTopic35_Encode);
   ("DescribeLogDirsTopic35.Decode", go_DescribeLogDirsTopic35_Decode);
   ("DescribeLogDirsPartition35.Size", go_DescribeLogDirsPartition35_Size);
   ("DescribeLogDirsPartition35.Encode", go_DescribeLogDirsPartition35_Encode);
   ("DescribeLogDirsPartition35.Decode", go_DescribeLogDirsPartition35_Decode);
   ("SaslAuthenticateRequest.Size", go_SaslAuthenticateRequest_Size);
   ("SaslAuthenticateRequest.Encode", go_SaslAuthenticateRequest_Encode);
   ("SaslAuthenticateRequest.Decode", go_SaslAuthenticateRequest_Decode);
   ("SaslAuthenticateResponse.Size", go_SaslAuthenticateResponse_Size);
   ("SaslAuthenticateResponse.Encode", go_SaslAuthenticateResponse_Encode);
   ("SaslAuthenticateResponse.Decode", go_SaslAuthenticateResponse_Decode);
   ("CreatePartitionsRequest.Size", go_CreatePartitionsRequest_Size);
   ("CreatePartitionsRequest.Encode", go_CreatePartitionsRequest_Encode);
   ("CreatePartitionsRequest.Decode", go_CreatePartitionsRequest_Decode);
   ("CreatePartitionsTopic37.Size", go_CreatePartitionsTopic37_Size);
   ("CreatePartitionsTopic37.Encode", go_CreatePartitionsTopic37_Encode);
   ("CreatePartitionsTopic37.Decode", go_CreatePartitionsTopic37_Decode);
   ("CreatePartitionsAssignment37.Size", go_CreatePartitionsAssignment37_Size);
   ("CreatePartitionsAssignment37.Encode", go_CreatePartitionsAssignment37_Encode);
   ("CreatePartitionsAssignment37.Decode", go_CreatePartitionsAssignment37_Decode);
   ("CreatePartitionsResponse.Size", go_CreatePartitionsResponse_Size);
   ("CreatePartitionsResponse.Encode", go_CreatePartitionsResponse_Encode);
   ("CreatePartitionsResponse.Decode", go_CreatePartitionsResponse_Decode);
   ("CreatePartitionsTopicResult37.Size", go_CreatePartitionsTopicResult37_Size);
   ("CreatePartitionsTopicResult37.Encode", go_CreatePartitionsTopicResult37_Encode);
   ("CreatePartitionsTopicResult37.Decode", go_CreatePartitionsTopicResult37_Decode);
   ("CreateDelegationTokenRequest.Size", go_CreateDelegationTokenRequest_Size);
   ("CreateDelegationTokenRequest.Encode", go_CreateDelegationTokenRequest_Encode);
   ("CreateDelegationTokenRequest.Decode", go_CreateDelegationTokenRequest_Decode);
   ("CreatableRenewers38.Size", go_CreatableRenewers38_Size);
   ("CreatableRenewers38.Encode", go_CreatableRenewers38_Encode);
   ("CreatableRenewers38.Decode", go_CreatableRenewers38_Decode);
   ("CreateDelegationTokenResponse.Size", go_CreateDelegationTokenResponse_Size);
   ("CreateDelegationTokenResponse.Encode", go_CreateDelegationTokenResponse_Encode);
   ("CreateDelegationTokenResponse.Decode", go_CreateDelegationTokenResponse_Decode);
   ("RenewDelegationTokenRequest.Size", go_RenewDelegationTokenRequest_Size);
   ("RenewDelegationTokenRequest.Encode", go_RenewDelegationTokenRequest_Encode);
   ("RenewDelegationTokenRequest.Decode", go_RenewDelegationTokenRequest_Decode);
   ("RenewDelegationTokenResponse.Size", go_RenewDelegationTokenResponse_Size);
   ("RenewDelegationTokenResponse.Encode", go_RenewDelegationTokenResponse_Encode);
   ("RenewDelegationTokenResponse.Decode", go_RenewDelegationTokenResponse_Decode);
   ("ExpireDelegationTokenRequest.Size", go_ExpireDelegationTokenRequest_Size);
   ("ExpireDelegationTokenRequest.Encode", go_ExpireDelegationTokenRequest_Encode);
   ("ExpireDelegationTokenRequest.Decode", go_ExpireDelegationTokenRequest_Decode);
   ("ExpireDelegationTokenResponse.Size", go_ExpireDelegationTokenResponse_Size);
   ("ExpireDelegationTokenResponse.Encode", go_ExpireDelegationTokenResponse_Encode);
   ("ExpireDelegationTokenResponse.Decode", go_ExpireDelegationTokenResponse_Decode);
   ("DescribeDelegationTokenRequest.Size", go_DescribeDelegationTokenRequest_Size);
   ("DescribeDelegationTokenRequest.Encode", go_DescribeDelegationTokenRequest_Encode);
   ("DescribeDelegationTokenRequest.Decode", go_DescribeDelegationTokenRequest_Decode);
   ("DescribeDelegationTokenOwner41.Size", go_DescribeDelegationTokenOwner41_Size);
   ("DescribeDelegationTokenOwner41.Encode", go_DescribeDelegationTokenOwner41_Encode);
   ("DescribeDelegationTokenOwner41.Decode", go_DescribeDelegationTokenOwner41_Decode);
   ("DescribeDelegationTokenResponse.Size", go_DescribeDelegationTokenResponse_Size);
   ("DescribeDelegationTokenResponse.Encode", go_DescribeDelegationTokenResponse_Encode);
   ("DescribeDelegationTokenResponse.Decode", go_DescribeDelegationTokenResponse_Decode);
   ("DescribedDelegationToken41.Size", go_DescribedDelegationToken41_Size);
   ("DescribedDelegationToken41.Encode", go_DescribedDelegationToken41_Encode);
   ("DescribedDelegationToken41.Decode", go_DescribedDelegationToken41_Decode);
   ("DescribedDelegationTokenRenewer41.Size", go_DescribedDelegationTokenRenewer41_Size);
   ("DescribedDelegationTokenRenewer41.Encode", go_DescribedDelegationTokenRenewer41_Encode);
   ("DescribedDelegationTokenRenewer41.Decode", go_DescribedDelegationTokenRenewer41_Decode);
   ("DeleteGroupsRequest.Size", go_DeleteGroupsRequest_Size);
   ("DeleteGroupsRequest.Encode", go_DeleteGroupsRequest_Encode);
   ("DeleteGroupsRequest.Decode", go_DeleteGroupsRequest_Decode);
   ("DeleteGroupsResponse.Size", go_DeleteGroupsResponse_Size);
   ("DeleteGroupsResponse.Encode", go_DeleteGroupsResponse_Encode);
   ("DeleteGroupsResponse.Decode", go_DeleteGroupsResponse_Decode);
   ("DeletableGroupResult42.Size", go_DeletableGroupResult42_Size);
   ("DeletableGroupResult42.Encode", go_DeletableGroupResult42_Encode);
   ("DeletableGroupResult42.Decode", go_DeletableGroupResult42_Decode);
   ("ElectLeadersRequest.Size", go_ElectLeadersRequest_Size);
   ("ElectLeadersRequest.Encode", go_ElectLeadersRequest_Encode);
   ("ElectLeadersRequest.Decode", go_ElectLeadersRequest_Decode);
   ("TopicPartitions43.Size", go_TopicPartitions43_Size);
   ("TopicPartitions43.Encode", go_TopicPartitions43_Encode);
   ("TopicPartitions43.Decode", go_TopicPartitions43_Decode);
   ("ElectLeadersResponse.Size", go_ElectLeadersResponse_Size);
   ("ElectLeadersResponse.Encode", go_ElectLeadersResponse_Encode);
   ("ElectLeadersResponse.Decode", go_ElectLeadersResponse_Decode);
   ("ReplicaElectionResult43.Size", go_ReplicaElectionResult43_Size);
   ("ReplicaElectionResult43.Encode", go_ReplicaElectionResult43_Encode);
   ("ReplicaElectionResult43.Decode", go_ReplicaElectionResult43_Decode);
   ("PartitionResult43.Size", go_PartitionResult43_Size);
   ("PartitionResult43.Encode", go_PartitionResult43_Encode);
   ("PartitionResult43.Decode", go_PartitionResult43_Decode);
   ("IncrementalAlterConfigsRequest.Size", go_IncrementalAlterConfigsRequest_Size);
   ("IncrementalAlterConfigsRequest.Encode", go_IncrementalAlterConfigsRequest_Encode);
   ("IncrementalAlterConfigsRequest.Decode", go_IncrementalAlterConfigsRequest_Decode);
   ("AlterConfigsResource44.Size", go_AlterConfigsResource44_Size);
   ("AlterConfigsResource44.Encode", go_AlterConfigsResource44_Encode);
   ("AlterConfigsResource44.Decode", go_AlterConfigsResource44_Decode);
   ("AlterableConfig44.Size", go_AlterableConfig44_Size);
   ("AlterableConfig44.Encode", go_AlterableConfig44_Encode);
   ("AlterableConfig44.Decode", go_AlterableConfig44_Decode);
   ("IncrementalAlterConfigsResponse.Size", go_IncrementalAlterConfigsResponse_Size);
   ("IncrementalAlterConfigsResponse.Encode", go_IncrementalAlterConfigsResponse_Encode);
   ("IncrementalAlterConfigsResponse.Decode", go_IncrementalAlterConfigsResponse_Decode);
   ("AlterConfigsResourceResponse44.Size", go_AlterConfigsResourceResponse44_Size);
   ("AlterConfigsResourceResponse44.Encode", go_AlterConfigsResourceResponse44_Encode);
   ("AlterConfigsResourceResponse44.Decode", go_AlterConfigsResourceResponse44_Decode);
   ("AlterPartitionReassignmentsRequest.Size", go_AlterPartitionReassignmentsRequest_Size);
   ("AlterPartitionReassignmentsRequest.Encode", go_AlterPartitionReassignmentsRequest_Encode);
   ("AlterPartitionReassignmentsRequest.Decode", go_AlterPartitionReassignmentsRequest_Decode);
   ("ReassignableTopic45.Size", go_ReassignableTopic45_Size);
   ("ReassignableTopic45.Encode", go_ReassignableTopic45_Encode);
   ("ReassignableTopic45.Decode", go_ReassignableTopic45_Decode);
   ("ReassignablePartition45.Size", go_ReassignablePartition45_Size);
   ("ReassignablePartition45.Encode", go_ReassignablePartition45_Encode);
   ("ReassignablePartition45.Decode", go_ReassignablePartition45_Decode);
   ("AlterPartitionReassignmentsResponse.Size", go_AlterPartitionReassignmentsResponse_Size);
   ("AlterPartitionReassignmentsResponse.Encode", go_AlterPartitionReassignmentsResponse_Encode);
   ("AlterPartitionReassignmentsResponse.Decode", go_AlterPartitionReassignmentsResponse_Decode);
   ("ReassignableTopicResponse45.Size", go_ReassignableTopicResponse45_Size);
   ("ReassignableTopicResponse45.Encode", go_ReassignableTopicResponse45_Encode);
   ("ReassignableTopicResponse45.Decode", go_ReassignableTopicResponse45_Decode);
   ("ReassignablePartitionResponse45.Size", go_ReassignablePartitionResponse45_Size);
   ("ReassignablePartitionResponse45.Encode", go_ReassignablePartitionResponse45_Encode);
   ("ReassignablePartitionResponse45.Decode", go_ReassignablePartitionResponse45_Decode);
   ("ListPartitionReassignmentsRequest.Size", go_ListPartitionReassignmentsRequest_Size);
   ("ListPartitionReassignmentsRequest.Encode", go_ListPartitionReassignmentsRequest_Encode);
   ("ListPartitionReassignmentsRequest.Decode", go_ListPartitionReassignmentsRequest_Decode);
   ("ListPartitionReassignmentsTopics46.Size", go_ListPartitionReassignmentsTopics46_Size);
   ("ListPartitionReassignmentsTopics46.Encode", go_ListPartitionReassignmentsTopics46_Encode);
   ("ListPartitionReassignmentsTopics46.Decode", go_ListPartitionReassignmentsTopics46_Decode);
   ("ListPartitionReassignmentsResponse.Size", go_ListPartitionReassignmentsResponse_Size);
   ("ListPartitionReassignmentsResponse.Encode", go_ListPartitionReassignmentsResponse_Encode);
   ("ListPartitionReassignmentsResponse.Decode", go_ListPartitionReassignmentsResponse_Decode);
   ("OngoingTopicReassignment46.Size", go_OngoingTopicReassignment46_Size);
   ("OngoingTopicReassignment46.Encode", go_OngoingTopicReassignment46_Encode);
   ("OngoingTopicReassignment46.Decode", go_OngoingTopicReassignment46_Decode);
   ("OngoingPartitionReassignment46.Size", go_OngoingPartitionReassignment46_Size);
   ("OngoingPartitionReassignment46.Encode", go_OngoingPartitionReassignment46_Encode);
   ("OngoingPartitionReassignment46.Decode", go_OngoingPartitionReassignment46_Decode);
   ("OffsetDeleteRequest.Size", go_OffsetDeleteRequest_Size);
   ("OffsetDeleteRequest.Encode", go_OffsetDeleteRequest_Encode);
   ("OffsetDeleteRequest.Decode", go_OffsetDeleteRequest_Decode);
   ("OffsetDeleteRequestTopic47.Size", go_OffsetDeleteRequestTopic47_Size);
   ("OffsetDeleteRequestTopic47.Encode", go_OffsetDeleteRequestTopic47_Encode);
   ("OffsetDeleteRequestTopic47.Decode", go_OffsetDeleteRequestTopic47_Decode);
   ("OffsetDeleteRequestPartition47.Size", go_OffsetDeleteRequestPartition47_Size);
   ("OffsetDeleteRequestPartition47.Encode", go_OffsetDeleteRequestPartition47_Encode);
   ("OffsetDeleteRequestPartition47.Decode", go_OffsetDeleteRequestPartition47_Decode);
   ("OffsetDeleteResponse.Size", go_OffsetDeleteResponse_Size);
   ("OffsetDeleteResponse.Encode", go_OffsetDeleteResponse_Encode);
   ("OffsetDeleteResponse.Decode", go_OffsetDeleteResponse_Decode);
   ("OffsetDeleteResponseTopic47.Size", go_OffsetDeleteResponseTopic47_Size);
   ("OffsetDeleteResponseTopic47.Encode", go_OffsetDeleteResponseTopic47_Encode);
   ("OffsetDeleteResponseTopic47.Decode", go_OffsetDeleteResponseTopic47_Decode);
   ("OffsetDeleteResponsePartition47.Size", go_OffsetDeleteResponsePartition47_Size);
   ("OffsetDeleteResponsePartition47.Encode", go_OffsetDeleteResponsePartition47_Encode);
   ("OffsetDeleteResponsePartition47.Decode", go_OffsetDeleteResponsePartition47_Decode)].
