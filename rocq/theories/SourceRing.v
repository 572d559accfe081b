(** * ring/buffer.go as terms of GoLang.v

    Written by tools/go_source.py, which see. *)
From Coq Require Import String.
From Verif Require Import GoBase GoLang.
Local Open Scope string_scope.
Local Open Scope list_scope.
Local Open Scope Z_scope.

(** ring/buffer.go:30 *)
Definition go_ring_newMutex : func := mkFunc [("ctx", GNamed "context.Context")] [GPtr (GNamed "mutex")]
  [SReturn [(ENew "mutex" [("ctx", (EVar "ctx")); ("ch", (EMake (GChan) (EInt 0)))])]].
(** ring/buffer.go:37 *)
Definition go_mutex_Wait : func := mkFunc [("m", GPtr (GNamed "mutex"))] []
  [SIf [] (ECall "atomic.CompareAndSwapInt32" [(EAddr (EField (EVar "m") "set")); (EInt 0); (EInt 1)])
     [SSelect
       [(CRecv (EMethod (EField (EVar "m") "ctx") "Done" []), []);
        (CSend (EField (EVar "m") "ch") EEmpty, [])]]
     []].
(** ring/buffer.go:46 *)
Definition go_mutex_Release : func := mkFunc [("m", GPtr (GNamed "mutex"))] []
  [SIf [] (ECall "atomic.CompareAndSwapInt32" [(EAddr (EField (EVar "m") "set")); (EInt 1); (EInt 0)])
     [SSelect
       [(CRecv (EMethod (EField (EVar "m") "ctx") "Done" []), []);
        (CRecv (EField (EVar "m") "ch"), [])]]
     []].
(** ring/buffer.go:69 *)
Definition go_ring_New : func := mkFunc [("size", GInt INT)] [GPtr (GNamed "Buffer")]
  [SDefine ["ctx"; "cancel"] [(ECall "context.WithCancel" [(ECall "context.Background" [])])];
   SReturn [(ENew "Buffer" [("ctx", (EVar "ctx")); ("cancel", (EVar "cancel")); ("data", (EMake (GSlice (GInt U8)) (EVar "size"))); ("readLock", (ECall "ring.newMutex" [(EVar "ctx")])); ("writeLock", (ECall "ring.newMutex" [(EVar "ctx")])); ("size", (EConv (GInt I32) (EVar "size")))])]].
(** ring/buffer.go:81 *)
Definition go_Buffer_Close : func := mkFunc [("r", GPtr (GNamed "Buffer"))] [GNamed "error"]
  [SExpr (EMethod (EVar "r") "cancel" []);
   SReturn [ENil]].
(** ring/buffer.go:88 *)
Definition go_Buffer_WriteN : func := mkFunc [("r", GPtr (GNamed "Buffer")); ("data", GSlice (GInt U8)); ("n", GInt INT)] []
  [SVar "pos" None (Some (ECall "atomic.LoadInt32" [(EAddr (EField (EVar "r") "next"))]));
   SVar "start" None (Some (ECall "atomic.LoadInt32" [(EAddr (EField (EVar "r") "start"))]));
   SVar "wrote" (Some (GInt INT)) None;
   SFor [SDefine ["i"] [(EInt 0)]] (EBin Lt (EVar "i") (EVar "n")) [SOp (EVar "i") Add (EInt 1)]
     [SAssign [(EIndex (EField (EVar "r") "data") (EVar "pos"))] [(EIndex (EVar "data") (EVar "i"))];
      SAssign [(EVar "pos")] [(ECall "ring.incr" [(EVar "pos"); (EField (EVar "r") "size")])];
      SIf [SDefine ["next"] [(ECall "ring.incr" [(EVar "pos"); (EField (EVar "r") "size")])]] (EBin Eq (EVar "next") (EVar "start"))
       [SExpr (ECall "atomic.StoreInt32" [(EAddr (EField (EVar "r") "next")); (EVar "pos")]);
        SExpr (EMethod (EField (EVar "r") "readLock") "Release" []);
        SAssign [(EVar "wrote")] [(EVar "i")];
        SAssign [(EVar "start")] [(ECall "atomic.LoadInt32" [(EAddr (EField (EVar "r") "start"))])];
        SIf [SDefine ["next"] [(ECall "ring.incr" [(EVar "pos"); (EField (EVar "r") "size")])]] (EBin Eq (EVar "next") (EVar "start"))
         [SExpr (EMethod (EField (EVar "r") "writeLock") "Wait" [])]
         []]
       []];
   SExpr (ECall "atomic.StoreInt32" [(EAddr (EField (EVar "r") "next")); (EVar "pos")]);
   SIf [] (EBin Gt (EVar "n") (EBin Add (EVar "wrote") (EInt 1)))
     [SExpr (EMethod (EField (EVar "r") "readLock") "Release" [])]
     []].
(** ring/buffer.go:126 *)
Definition go_Buffer_ReadN : func := mkFunc [("r", GPtr (GNamed "Buffer")); ("data", GSlice (GInt U8)); ("n", GInt INT)] []
  [SVar "pos" None (Some (ECall "atomic.LoadInt32" [(EAddr (EField (EVar "r") "start"))]));
   SVar "next" None (Some (ECall "atomic.LoadInt32" [(EAddr (EField (EVar "r") "next"))]));
   SVar "read" None (Some (EInt 0));
   SFor [SDefine ["i"] [(EInt 0)]] (EBin Lt (EVar "i") (EVar "n")) [SOp (EVar "i") Add (EInt 1)]
     [SIf [] (EBin Eq (EVar "pos") (EVar "next"))
       [SExpr (ECall "atomic.StoreInt32" [(EAddr (EField (EVar "r") "start")); (EVar "pos")]);
        SIf [] (EBin Gt (EVar "read") (EInt 0))
         [SExpr (EMethod (EField (EVar "r") "writeLock") "Release" [])]
         [];
        SAssign [(EVar "next")] [(ECall "atomic.LoadInt32" [(EAddr (EField (EVar "r") "next"))])];
        SIf [] (EBin Eq (EVar "pos") (EVar "next"))
         [SExpr (EMethod (EField (EVar "r") "readLock") "Wait" [])]
         []]
       [];
      SAssign [(EIndex (EVar "data") (EVar "i"))] [(EIndex (EField (EVar "r") "data") (EVar "pos"))];
      SAssign [(EVar "pos")] [(ECall "ring.incr" [(EVar "pos"); (EField (EVar "r") "size")])];
      SOp (EVar "read") Add (EInt 1)];
   SExpr (ECall "atomic.StoreInt32" [(EAddr (EField (EVar "r") "start")); (EVar "pos")]);
   SIf [] (EBin Gt (EVar "read") (EInt 0))
     [SExpr (EMethod (EField (EVar "r") "writeLock") "Release" [])]
     []].
(** ring/buffer.go:157 *)
Definition go_ring_incr : func := mkFunc [("pos", GInt I32); ("size", GInt I32)] [GInt I32]
  [SOp (EVar "pos") Add (EInt 1);
   SIf [] (EBin Eq (EVar "pos") (EVar "size"))
     [SReturn [(EInt 0)]]
     [];
   SReturn [(EVar "pos")]].

Definition ring_source : package := mkPackage
  [("mutex", [("ctx", GNamed "context.Context"); ("ch", GChan); ("set", GInt I32)]);
   ("Buffer", [("ctx", GNamed "context.Context"); ("cancel", GNamed "context.CancelFunc"); ("data", GSlice (GInt U8)); ("start", GInt I32); ("next", GInt I32); ("readLock", GPtr (GNamed "mutex")); ("writeLock", GPtr (GNamed "mutex")); ("size", GInt I32)])]
  []
  [("ring.newMutex", go_ring_newMutex);
   ("mutex.Wait", go_mutex_Wait);
   ("mutex.Release", go_mutex_Release);
   ("ring.New", go_ring_New);
   ("Buffer.Close", go_Buffer_Close);
   ("Buffer.WriteN", go_Buffer_WriteN);
   ("Buffer.ReadN", go_Buffer_ReadN);
   ("ring.incr", go_ring_incr)].
