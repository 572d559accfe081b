(** * gen.conn.go as terms of GoLang.v

    Written by tools/go_source.py, which see. *)
From Coq Require Import String.
From Verif Require Import GoBase GoLang.
Local Open Scope string_scope.
Local Open Scope list_scope.
Local Open Scope Z_scope.

(** gen.conn.go:53 *)
Definition go_kafka_dial : func := mkFunc [("c", GNamed "config"); ("addr", GString)] [GNamed "net.Conn"; GNamed "error"]
  [SIf [] (EBin Eq (EField (EVar "c") "tlsConfig") ENil)
     [SReturn [(EMethod (EField (EVar "c") "dialer") "Dial" [(EStr [116; 99; 112]); (EVar "addr")])]]
     [];
   SReturn [(ECall "tls.DialWithDialer" [(EField (EVar "c") "dialer"); (EStr [116; 99; 112]); (EVar "addr"); (EField (EVar "c") "tlsConfig")])]].
(** gen.conn.go:61 *)
Definition go_kafka_Connect : func := mkFunc [("addr", GString); ("opts", GDots (GNamed "Option"))] [GPtr (GNamed "Conn"); GNamed "error"]
  [SDefine ["config"] [(ECall "kafka.buildConfig" [(EVar "opts")])];
   SDefine ["raw"; "err"] [(ECall "kafka.dial" [(EVar "config"); (EVar "addr")])];
   SIf [] (EBin Ne (EVar "err") ENil)
     [SReturn [ENil; (ECall "fmt.Errorf" [(EStr [102; 97; 105; 108; 101; 100; 32; 116; 111; 32; 100; 105; 97; 108; 32; 98; 114; 111; 107; 101; 114; 44; 32; 37; 118; 58; 32; 37; 119]); (EVar "addr"); (EVar "err")])]]
     [];
   SDefine ["ctx"; "cancel"] [(ECall "context.WithCancel" [(ECall "context.Background" [])])];
   SVar "rb" None (Some (ECall "ring.New" [(EInt 5000000)]));
   SVar "ch" None (Some (EMake (GChanOf (GNamed "request")) (EInt 32)));
   SVar "e" None (Some (ECall "message.NewEncoder" [(ECall "bufio.NewWriter" [(EVar "raw")])]));
   SDefine ["c"] [(ENew "Conn" [("cancel", (EVar "cancel")); ("ch", (EVar "ch")); ("doneMessage", (EMake (GChan) (EInt 0))); ("doneRead", (EMake (GChan) (EInt 0))); ("encoder", (EVar "e")); ("raw", (EVar "raw")); ("rb", (EVar "rb")); ("requests", (EMake (GMap (GInt I32) (GNamed "request")) (EInt 0)))])];
   SGo (EMethod (EVar "c") "readLoop" [(EVar "ctx"); (EVar "rb"); (EVar "raw")]);
   SGo (EMethod (EVar "c") "messageLoop" [(EVar "ctx"); (EVar "rb"); (EVar "ch")]);
   SReturn [(EVar "c"); ENil]].
(** gen.conn.go:92 *)
Definition go_Conn_readLoop : func := mkFunc [("c", GPtr (GNamed "Conn")); ("ctx", GNamed "context.Context"); ("rb", GPtr (GNamed "ring.Buffer")); ("raw", GNamed "net.Conn")] []
  [SDefer (ECall "close" [(EField (EVar "c") "doneRead")]);
   SDefine ["buffer"] [(EMake (GSlice (GInt U8)) (EInt 2000000))];
   SFor [] (EBool true) []
     [SDefine ["n"; "err"] [(EMethod (EVar "raw") "Read" [(EVar "buffer")])];
      SIf [] (EBin Ne (EVar "err") ENil)
       [SExpr (ECall "fmt.Println" [(EVar "err")]);
        SReturn []]
       [];
      SExpr (EMethod (EVar "rb") "WriteN" [(EVar "buffer"); (EVar "n")])]].
(** gen.conn.go:107 *)
Definition go_Conn_messageLoop : func := mkFunc [("c", GPtr (GNamed "Conn")); ("ctx", GNamed "context.Context"); ("rb", GPtr (GNamed "ring.Buffer")); ("ch", GChanOf (GNamed "request"))] []
  [SDefer (ECall "close" [(EField (EVar "c") "doneMessage")]);
   SVar "buffer" None (Some (EMake (GSlice (GInt U8)) (EInt 2000000)));
   SVar "d" None (Some (ECall "message.NewDecoder" [(EVar "buffer"); (ELen (EVar "buffer"))]));
   SFor [] (EBool true) []
     [SSelectElse
       [(CRecv (EMethod (EVar "ctx") "Done" []), [SReturn []])]
       [];
      SExpr (EMethod (EVar "rb") "ReadN" [(EVar "buffer"); (EInt 4)]);
      SExpr (EMethod (EVar "d") "Reset" [(EInt 4)]);
      SDefine ["v"; "_"] [(EMethod (EVar "d") "Int32" [])];
      SDefine ["size"] [(EConv (GInt INT) (EVar "v"))];
      SExpr (EMethod (EVar "rb") "ReadN" [(EVar "buffer"); (EVar "size")]);
      SExpr (EMethod (EVar "d") "Reset" [(EVar "size")]);
      SVar "resp" (Some (GNamed "message.ResponseHeader")) None;
      SIf [SDefine ["err"] [(EMethod (EAddr (EVar "resp")) "Decode" [(EVar "d"); (EInt 1)])]] (EBin Ne (EVar "err") ENil)
       [SExpr (ECall "fmt.Println" [(EVar "err")]);
        SContinue]
       [];
      SExpr (EMethod (EField (EVar "c") "readLock") "Lock" []);
      SDefine ["req"; "ok"] [(EIndex (EField (EVar "c") "requests") (EField (EVar "resp") "CorrelationId"))];
      SExpr (ECall "delete" [(EField (EVar "c") "requests"); (EField (EVar "resp") "CorrelationId")]);
      SExpr (EMethod (EField (EVar "c") "readLock") "Unlock" []);
      SIf [] (EVar "ok")
       [SSend (EField (EVar "req") "reply") (EMethod (EVar "req") "decode" [(EVar "d")])]
       []]].
(** gen.conn.go:153 *)
Definition go_Conn_Do : func := mkFunc [("c", GPtr (GNamed "Conn")); ("encode", GNamed "EncodeFunc"); ("decode", GNamed "DecodeFunc")] [GNamed "error"]
  [SDefine ["correlationID"] [(ECall "atomic.AddInt32" [(EAddr (EField (EVar "c") "id")); (EInt 1)])];
   SDefine ["req"] [(EStruct "request" [("decode", (EVar "decode")); ("reply", (EMake (GChanOf (GNamed "error")) (EInt 1)))])];
   SExpr (EMethod (EField (EVar "c") "readLock") "Lock" []);
   SAssign [(EIndex (EField (EVar "c") "requests") (EVar "correlationID"))] [(EVar "req")];
   SExpr (EMethod (EField (EVar "c") "readLock") "Unlock" []);
   SExpr (EMethod (EField (EVar "c") "writeLock") "Lock" []);
   SExpr (EApply (EVar "encode") [(EField (EVar "c") "encoder"); (EVar "correlationID")]);
   SDefine ["err"] [(EMethod (EField (EVar "c") "encoder") "Flush" [])];
   SExpr (EMethod (EField (EVar "c") "writeLock") "Unlock" []);
   SIf [] (EBin Ne (EVar "err") ENil)
     [SReturn [(EVar "err")]]
     [];
   SReturn [(ERecv (EField (EVar "req") "reply"))]].
(** gen.conn.go:176 *)
Definition go_Conn_Close : func := mkFunc [("c", GPtr (GNamed "Conn"))] [GNamed "error"]
  [SExpr (EMethod (EVar "c") "cancel" []);
   SExpr (EMethod (EField (EVar "c") "rb") "Close" []);
   SExpr (EMethod (EField (EVar "c") "raw") "Close" []);
   SExpr (ERecv (EField (EVar "c") "doneMessage"));
   SExpr (ERecv (EField (EVar "c") "doneRead"));
   SReturn [(EField (EVar "c") "err")]].

Definition conn_source : package := mkPackage
  [("Conn", [("cancel", GNamed "context.CancelFunc"); ("ch", GChanOf (GNamed "request")); ("doneMessage", GChan); ("doneRead", GChan); ("encoder", GPtr (GNamed "message.Encoder")); ("err", GNamed "error"); ("id", GInt I32); ("raw", GNamed "net.Conn"); ("rb", GPtr (GNamed "ring.Buffer")); ("writeLock", GNamed "sync.Mutex"); ("readLock", GNamed "sync.Mutex"); ("requests", GMap (GInt I32) (GNamed "request"))]);
   ("request", [("decode", GFunc); ("reply", GChanOf (GNamed "error"))])]
  []
  [("kafka.dial", go_kafka_dial);
   ("kafka.Connect", go_kafka_Connect);
   ("Conn.readLoop", go_Conn_readLoop);
   ("Conn.messageLoop", go_Conn_messageLoop);
   ("Conn.Do", go_Conn_Do);
   ("Conn.Close", go_Conn_Close)].
