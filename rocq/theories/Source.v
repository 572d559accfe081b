(** * message/decoder.go, message/encoder.go and message/sizeof/sizeof.go as terms of GoLang.v

    Written by tools/go_source.py, which see. *)
From Coq Require Import String.
From Verif Require Import GoBase GoLang.
Local Open Scope string_scope.
Local Open Scope list_scope.
Local Open Scope Z_scope.

(** message/decoder.go:33 *)
Definition go_message_IsInsufficientDataError : func := mkFunc [("err", GNamed "error")] [GBool]
  [SReturn [(ECall "errors.Is" [(EVar "err"); (EGlobal "io.ErrShortBuffer")])]].
(** message/decoder.go:45 *)
Definition go_message_NewDecoder : func := mkFunc [("raw", GSlice (GInt U8)); ("length", GInt INT)] [GPtr (GNamed "Decoder")]
  [SReturn [(ENew "Decoder" [("raw", (EVar "raw")); ("length", (EVar "length"))])]].
(** message/decoder.go:54 *)
Definition go_Decoder_Reset : func := mkFunc [("d", GPtr (GNamed "Decoder")); ("length", GInt INT)] []
  [SAssign [(EField (EVar "d") "length")] [(EVar "length")];
   SAssign [(EField (EVar "d") "offset")] [(EInt 0)]].
(** message/decoder.go:60 *)
Definition go_Decoder_remains : func := mkFunc [("d", GPtr (GNamed "Decoder")); ("n", GInt INT)] [GNamed "error"]
  [SIf [SDefine ["remain"] [(EBin Sub (EField (EVar "d") "length") (EField (EVar "d") "offset"))]] (EBin Lt (EVar "remain") (EVar "n"))
     [SReturn [(EGlobal "io.ErrShortBuffer")]]
     [];
   SReturn [ENil]].
(** message/decoder.go:68 *)
Definition go_Decoder_ArrayLength : func := mkFunc [("d", GPtr (GNamed "Decoder"))] [GInt INT; GNamed "error"]
  [SDefine ["n"; "err"] [(EMethod (EVar "d") "Int32" [])];
   SIf [] (EBin Ne (EVar "err") ENil)
     [SReturn [(EInt 0); (EVar "err")]]
     [];
   SReturn [(EConv (GInt INT) (EVar "n")); ENil]].
(** message/decoder.go:77 *)
Definition go_Decoder_Bool : func := mkFunc [("d", GPtr (GNamed "Decoder"))] [GBool; GNamed "error"]
  [SIf [SDefine ["err"] [(EMethod (EVar "d") "remains" [(EInt 1)])]] (EBin Ne (EVar "err") ENil)
     [SReturn [(EBool false); (EVar "err")]]
     [];
   SDefine ["b"] [(EBin Eq (EIndex (EField (EVar "d") "raw") (EField (EVar "d") "offset")) (EInt 1))];
   SOp (EField (EVar "d") "offset") Add (EInt 1);
   SReturn [(EVar "b"); ENil]].
(** message/decoder.go:87 *)
Definition go_Decoder_Bytes : func := mkFunc [("d", GPtr (GNamed "Decoder"))] [GSlice (GInt U8); GNamed "error"]
  [SDefine ["n"; "err"] [(EMethod (EVar "d") "Int32" [])];
   SIf [] (EBin Ne (EVar "err") ENil)
     [SReturn [ENil; (EVar "err")]]
     [];
   SDefine ["length"] [(EConv (GInt INT) (EVar "n"))];
   SIf [SDefine ["err"] [(EMethod (EVar "d") "remains" [(EVar "length")])]] (EBin Ne (EVar "err") ENil)
     [SReturn [ENil; (EVar "err")]]
     [];
   SDefine ["a"; "b"] [(EField (EVar "d") "offset"); (EBin Add (EField (EVar "d") "offset") (EVar "length"))];
   SDefine ["v"] [(ESlice (EField (EVar "d") "raw") (Some (EVar "a")) (Some (EVar "b")) (Some (EVar "b")))];
   SOp (EField (EVar "d") "offset") Add (EVar "length");
   SReturn [(EVar "v"); ENil]].
(** message/decoder.go:105 *)
Definition go_Decoder_Discard : func := mkFunc [("d", GPtr (GNamed "Decoder")); ("n", GInt INT)] [GNamed "error"]
  [SIf [SDefine ["err"] [(EMethod (EVar "d") "remains" [(EVar "n")])]] (EBin Ne (EVar "err") ENil)
     [SReturn [(EVar "err")]]
     [];
   SOp (EField (EVar "d") "offset") Add (EVar "n");
   SReturn [ENil]].
(** message/decoder.go:116 *)
Definition go_Decoder_Int8 : func := mkFunc [("d", GPtr (GNamed "Decoder"))] [GInt I8; GNamed "error"]
  [SIf [SDefine ["err"] [(EMethod (EVar "d") "remains" [(EInt 1)])]] (EBin Ne (EVar "err") ENil)
     [SReturn [(EInt 0); (EVar "err")]]
     [];
   SDefine ["v"] [(EConv (GInt I8) (EIndex (EField (EVar "d") "raw") (EField (EVar "d") "offset")))];
   SOp (EField (EVar "d") "offset") Add (EInt 1);
   SReturn [(EVar "v"); ENil]].
(** message/decoder.go:126 *)
Definition go_Decoder_Int16 : func := mkFunc [("d", GPtr (GNamed "Decoder"))] [GInt I16; GNamed "error"]
  [SIf [SDefine ["err"] [(EMethod (EVar "d") "remains" [(EInt 2)])]] (EBin Ne (EVar "err") ENil)
     [SReturn [(EInt 0); (EVar "err")]]
     [];
   SDefine ["v"] [(EConv (GInt I16) (ECall "binary.BigEndian.Uint16" [(ESlice (EField (EVar "d") "raw") (Some (EField (EVar "d") "offset")) None None)]))];
   SOp (EField (EVar "d") "offset") Add (EInt 2);
   SReturn [(EVar "v"); ENil]].
(** message/decoder.go:136 *)
Definition go_Decoder_Int32 : func := mkFunc [("d", GPtr (GNamed "Decoder"))] [GInt I32; GNamed "error"]
  [SIf [SDefine ["err"] [(EMethod (EVar "d") "remains" [(EInt 4)])]] (EBin Ne (EVar "err") ENil)
     [SReturn [(EInt 0); (EVar "err")]]
     [];
   SDefine ["v"] [(EConv (GInt I32) (ECall "binary.BigEndian.Uint32" [(ESlice (EField (EVar "d") "raw") (Some (EField (EVar "d") "offset")) None None)]))];
   SOp (EField (EVar "d") "offset") Add (EInt 4);
   SReturn [(EVar "v"); ENil]].
(** message/decoder.go:146 *)
Definition go_Decoder_Int32Array : func := mkFunc [("d", GPtr (GNamed "Decoder"))] [GSlice (GInt I32); GNamed "error"]
  [SDefine ["n"; "err"] [(EMethod (EVar "d") "ArrayLength" [])];
   SIf [] (EBin Ne (EVar "err") ENil)
     [SReturn [ENil; (EVar "err")]]
     [];
   SIf [] (EBin Eq (EVar "n") (ENeg (EInt 1)))
     [SReturn [ENil; ENil]]
     [];
   SDefine ["items"] [(EMake (GSlice (GInt I32)) (EVar "n"))];
   SFor [SDefine ["i"] [(EInt 0)]] (EBin Lt (EVar "i") (EVar "n")) [SOp (EVar "i") Add (EInt 1)]
     [SDefine ["item"; "err"] [(EMethod (EVar "d") "Int32" [])];
      SIf [] (EBin Ne (EVar "err") ENil)
       [SReturn [ENil; (EVar "err")]]
       [];
      SAssign [(EIndex (EVar "items") (EVar "i"))] [(EVar "item")]];
   SReturn [(EVar "items"); ENil]].
(** message/decoder.go:169 *)
Definition go_Decoder_Int64 : func := mkFunc [("d", GPtr (GNamed "Decoder"))] [GInt I64; GNamed "error"]
  [SIf [SDefine ["err"] [(EMethod (EVar "d") "remains" [(EInt 8)])]] (EBin Ne (EVar "err") ENil)
     [SReturn [(EInt 0); (EVar "err")]]
     [];
   SDefine ["v"] [(EConv (GInt I64) (ECall "binary.BigEndian.Uint64" [(ESlice (EField (EVar "d") "raw") (Some (EField (EVar "d") "offset")) None None)]))];
   SOp (EField (EVar "d") "offset") Add (EInt 8);
   SReturn [(EVar "v"); ENil]].
(** message/decoder.go:179 *)
Definition go_Decoder_Int64Array : func := mkFunc [("d", GPtr (GNamed "Decoder"))] [GSlice (GInt I64); GNamed "error"]
  [SDefine ["n"; "err"] [(EMethod (EVar "d") "ArrayLength" [])];
   SIf [] (EBin Ne (EVar "err") ENil)
     [SReturn [ENil; (EVar "err")]]
     [];
   SIf [] (EBin Eq (EVar "n") (ENeg (EInt 1)))
     [SReturn [ENil; ENil]]
     [];
   SDefine ["items"] [(EMake (GSlice (GInt I64)) (EVar "n"))];
   SFor [SDefine ["i"] [(EInt 0)]] (EBin Lt (EVar "i") (EVar "n")) [SOp (EVar "i") Add (EInt 1)]
     [SDefine ["item"; "err"] [(EMethod (EVar "d") "Int64" [])];
      SIf [] (EBin Ne (EVar "err") ENil)
       [SReturn [ENil; (EVar "err")]]
       [];
      SAssign [(EIndex (EVar "items") (EVar "i"))] [(EVar "item")]];
   SReturn [(EVar "items"); ENil]].
(** message/decoder.go:202 *)
Definition go_Decoder_NullableString : func := mkFunc [("d", GPtr (GNamed "Decoder"))] [GPtr (GString); GNamed "error"]
  [SDefine ["s"; "err"] [(EMethod (EVar "d") "String" [])];
   SIf [] (EBin Ne (EVar "err") ENil)
     [SReturn [ENil; (EVar "err")]]
     [];
   SReturn [(EAddr (EVar "s")); ENil]].
(** message/decoder.go:212 *)
Definition go_Decoder_String : func := mkFunc [("d", GPtr (GNamed "Decoder"))] [GString; GNamed "error"]
  [SDefine ["n"; "err"] [(EMethod (EVar "d") "Int16" [])];
   SIf [] (EBin Ne (EVar "err") ENil)
     [SReturn [(EStr []); (EVar "err")]]
     [];
   SIf [] (EBin Eq (EVar "n") (ENeg (EInt 1)))
     [SReturn [(EStr []); ENil]]
     [];
   SDefine ["length"] [(EConv (GInt INT) (EVar "n"))];
   SIf [SDefine ["err"] [(EMethod (EVar "d") "remains" [(EVar "length")])]] (EBin Ne (EVar "err") ENil)
     [SReturn [(EStr []); (EVar "err")]]
     [];
   SDefine ["s"] [(EConv GString (ESlice (EField (EVar "d") "raw") (Some (EField (EVar "d") "offset")) (Some (EBin Add (EField (EVar "d") "offset") (EVar "length"))) None))];
   SOp (EField (EVar "d") "offset") Add (EVar "length");
   SReturn [(EVar "s"); ENil]].
(** message/decoder.go:233 *)
Definition go_Decoder_StringArray : func := mkFunc [("d", GPtr (GNamed "Decoder"))] [GSlice (GString); GNamed "error"]
  [SDefine ["n"; "err"] [(EMethod (EVar "d") "ArrayLength" [])];
   SIf [] (EBin Ne (EVar "err") ENil)
     [SReturn [ENil; (EVar "err")]]
     [];
   SIf [] (EBin Eq (EVar "n") (ENeg (EInt 1)))
     [SReturn [ENil; ENil]]
     [];
   SDefine ["items"] [(EMake (GSlice (GString)) (EVar "n"))];
   SFor [SDefine ["i"] [(EInt 0)]] (EBin Lt (EVar "i") (EVar "n")) [SOp (EVar "i") Add (EInt 1)]
     [SDefine ["item"; "err"] [(EMethod (EVar "d") "String" [])];
      SIf [] (EBin Ne (EVar "err") ENil)
       [SReturn [ENil; (EVar "err")]]
       [];
      SAssign [(EIndex (EVar "items") (EVar "i"))] [(EVar "item")]];
   SReturn [(EVar "items"); ENil]].
(** message/decoder.go:255 *)
Definition go_Decoder_VarBytes : func := mkFunc [("d", GPtr (GNamed "Decoder"))] [GSlice (GInt U8); GNamed "error"]
  [SDefine ["n"; "err"] [(EMethod (EVar "d") "VarInt" [])];
   SIf [] (EBin Ne (EVar "err") ENil)
     [SReturn [ENil; (EVar "err")]]
     [];
   SDefine ["length"] [(EConv (GInt INT) (EVar "n"))];
   SIf [SDefine ["err"] [(EMethod (EVar "d") "remains" [(EVar "length")])]] (EBin Ne (EVar "err") ENil)
     [SReturn [ENil; (EVar "err")]]
     [];
   SDefine ["a"; "b"] [(EField (EVar "d") "offset"); (EBin Add (EField (EVar "d") "offset") (EVar "length"))];
   SDefine ["v"] [(ESlice (EField (EVar "d") "raw") (Some (EVar "a")) (Some (EVar "b")) (Some (EVar "b")))];
   SOp (EField (EVar "d") "offset") Add (EVar "length");
   SReturn [(EVar "v"); ENil]].
(** message/decoder.go:273 *)
Definition go_Decoder_VarInt : func := mkFunc [("d", GPtr (GNamed "Decoder"))] [GInt I64; GNamed "error"]
  [SDefine ["tmp"; "n"] [(ECall "binary.Varint" [(ESlice (EField (EVar "d") "raw") (Some (EField (EVar "d") "offset")) None None)])];
   SSwitch (EVar "n")
     [((EInt 0), [SAssign [(EField (EVar "d") "offset")] [(EField (EVar "d") "length")];
      SReturn [(EInt 0); (EGlobal "io.ErrShortBuffer")]]);
      ((ENeg (EInt 1)), [SAssign [(EField (EVar "d") "offset")] [(EField (EVar "d") "length")];
      SReturn [(EInt 0); (EGlobal "message.errVarIntOverflow")]])]
     [SOp (EField (EVar "d") "offset") Add (EVar "n");
      SReturn [(EVar "tmp"); ENil]]].
(** message/decoder.go:290 *)
Definition go_Decoder_VarString : func := mkFunc [("d", GPtr (GNamed "Decoder"))] [GString; GNamed "error"]
  [SDefine ["n"; "err"] [(EMethod (EVar "d") "VarInt" [])];
   SIf [] (EBin Ne (EVar "err") ENil)
     [SReturn [(EStr []); (EVar "err")]]
     [];
   SDefine ["length"] [(EConv (GInt INT) (EVar "n"))];
   SIf [SDefine ["err"] [(EMethod (EVar "d") "remains" [(EVar "length")])]] (EBin Ne (EVar "err") ENil)
     [SReturn [(EStr []); (EVar "err")]]
     [];
   SVar "eom" None (Some (EBin Add (EField (EVar "d") "offset") (EVar "length")));
   SVar "som" None (Some (EField (EVar "d") "offset"));
   SVar "runes" (Some (GSlice (GInt I32))) None;
   SFor [] (EBin Lt (EVar "som") (EVar "eom")) []
     [SDefine ["r"; "size"] [(ECall "utf8.DecodeRune" [(ESlice (EField (EVar "d") "raw") (Some (EVar "som")) (Some (EVar "eom")) None)])];
      SOp (EVar "som") Add (EVar "size");
      SAssign [(EVar "runes")] [(EAppend (EVar "runes") (EVar "r"))]];
   SOp (EField (EVar "d") "offset") Add (EVar "length");
   SReturn [(EConv GString (EVar "runes")); ENil]].
(** message/encoder.go:37 *)
Definition go_message_NewEncoder : func := mkFunc [("target", GNamed "io.Writer")] [GPtr (GNamed "Encoder")]
  [SReturn [(ENew "Encoder" [("target", (EVar "target"))])]].
(** message/encoder.go:44 *)
Definition go_Encoder_Flush : func := mkFunc [("e", GPtr (GNamed "Encoder"))] [GNamed "error"]
  [SIf [] (EBin Ne (EField (EVar "e") "err") ENil)
     [SReturn [(EField (EVar "e") "err")]]
     [];
   SIf [SDefine ["f"; "ok"] [(EAssert (EField (EVar "e") "target") "flusher")]] (EVar "ok")
     [SReturn [(EMethod (EVar "f") "Flush" [])]]
     [];
   SReturn [ENil]].
(** message/encoder.go:57 *)
Definition go_Encoder_PutArrayLength : func := mkFunc [("e", GPtr (GNamed "Encoder")); ("n", GInt INT)] []
  [SExpr (EMethod (EVar "e") "PutInt32" [(EConv (GInt I32) (EVar "n"))])].
(** message/encoder.go:62 *)
Definition go_Encoder_PutBool : func := mkFunc [("e", GPtr (GNamed "Encoder")); ("b", GBool)] []
  [SIf [] (EVar "b")
     [SExpr (EMethod (EVar "e") "PutInt8" [(EInt 1)])]
     [SExpr (EMethod (EVar "e") "PutInt8" [(EInt 0)])]].
(** message/encoder.go:71 *)
Definition go_Encoder_PutBytes : func := mkFunc [("e", GPtr (GNamed "Encoder")); ("data", GSlice (GInt U8))] []
  [SExpr (EMethod (EVar "e") "PutInt32" [(EConv (GInt I32) (ELen (EVar "data")))]);
   SIf [] (EBin Eq (EField (EVar "e") "err") ENil)
     [SAssign [(EVar "_"); (EField (EVar "e") "err")] [(EMethod (EField (EVar "e") "target") "Write" [(EVar "data")])]]
     []].
(** message/encoder.go:79 *)
Definition go_Encoder_PutInt8 : func := mkFunc [("e", GPtr (GNamed "Encoder")); ("i", GInt I8)] []
  [SIf [] (EBin Ne (EField (EVar "e") "err") ENil)
     [SReturn []]
     [];
   SAssign [(EIndex (EField (EVar "e") "buf") (EInt 0))] [(EConv (GInt U8) (EVar "i"))];
   SAssign [(EVar "_"); (EField (EVar "e") "err")] [(EMethod (EField (EVar "e") "target") "Write" [(ESlice (EField (EVar "e") "buf") None (Some (EInt 1)) None)])]].
(** message/encoder.go:89 *)
Definition go_Encoder_PutInt16 : func := mkFunc [("e", GPtr (GNamed "Encoder")); ("i", GInt I16)] []
  [SIf [] (EBin Ne (EField (EVar "e") "err") ENil)
     [SReturn []]
     [];
   SExpr (ECall "binary.BigEndian.PutUint16" [(ESlice (EField (EVar "e") "buf") None (Some (EInt 2)) None); (EConv (GInt U16) (EVar "i"))]);
   SAssign [(EVar "_"); (EField (EVar "e") "err")] [(EMethod (EField (EVar "e") "target") "Write" [(ESlice (EField (EVar "e") "buf") None (Some (EInt 2)) None)])]].
(** message/encoder.go:99 *)
Definition go_Encoder_PutInt32 : func := mkFunc [("e", GPtr (GNamed "Encoder")); ("i", GInt I32)] []
  [SIf [] (EBin Ne (EField (EVar "e") "err") ENil)
     [SReturn []]
     [];
   SExpr (ECall "binary.BigEndian.PutUint32" [(ESlice (EField (EVar "e") "buf") None (Some (EInt 4)) None); (EConv (GInt U32) (EVar "i"))]);
   SAssign [(EVar "_"); (EField (EVar "e") "err")] [(EMethod (EField (EVar "e") "target") "Write" [(ESlice (EField (EVar "e") "buf") None (Some (EInt 4)) None)])]].
(** message/encoder.go:109 *)
Definition go_Encoder_PutInt32Array : func := mkFunc [("e", GPtr (GNamed "Encoder")); ("ii", GSlice (GInt I32))] []
  [SIf [] (EBin Ne (EField (EVar "e") "err") ENil)
     [SReturn []]
     [];
   SIf [] (EBin Eq (EVar "ii") ENil)
     [SExpr (EMethod (EVar "e") "PutInt32" [(ENeg (EInt 1))]);
      SReturn []]
     [];
   SDefine ["length"] [(ELen (EVar "ii"))];
   SExpr (EMethod (EVar "e") "PutArrayLength" [(EVar "length")]);
   SRange "_" "i" (EVar "ii")
     [SExpr (EMethod (EVar "e") "PutInt32" [(EVar "i")])]].
(** message/encoder.go:127 *)
Definition go_Encoder_PutInt64 : func := mkFunc [("e", GPtr (GNamed "Encoder")); ("i", GInt I64)] []
  [SIf [] (EBin Ne (EField (EVar "e") "err") ENil)
     [SReturn []]
     [];
   SExpr (ECall "binary.BigEndian.PutUint64" [(ESlice (EField (EVar "e") "buf") None (Some (EInt 8)) None); (EConv (GInt U64) (EVar "i"))]);
   SAssign [(EVar "_"); (EField (EVar "e") "err")] [(EMethod (EField (EVar "e") "target") "Write" [(ESlice (EField (EVar "e") "buf") None (Some (EInt 8)) None)])]].
(** message/encoder.go:137 *)
Definition go_Encoder_PutInt64Array : func := mkFunc [("e", GPtr (GNamed "Encoder")); ("ii", GSlice (GInt I64))] []
  [SIf [] (EBin Ne (EField (EVar "e") "err") ENil)
     [SReturn []]
     [];
   SIf [] (EBin Eq (EVar "ii") ENil)
     [SExpr (EMethod (EVar "e") "PutInt32" [(ENeg (EInt 1))]);
      SReturn []]
     [];
   SDefine ["length"] [(ELen (EVar "ii"))];
   SExpr (EMethod (EVar "e") "PutArrayLength" [(EVar "length")]);
   SRange "_" "i" (EVar "ii")
     [SExpr (EMethod (EVar "e") "PutInt64" [(EVar "i")])]].
(** message/encoder.go:155 *)
Definition go_Encoder_PutNullableString : func := mkFunc [("e", GPtr (GNamed "Encoder")); ("s", GPtr (GString))] []
  [SIf [] (EBin Eq (EVar "s") ENil)
     [SExpr (EMethod (EVar "e") "PutInt16" [(ENeg (EInt 1))]);
      SReturn []]
     [];
   SExpr (EMethod (EVar "e") "PutString" [(EDeref (EVar "s"))])].
(** message/encoder.go:164 *)
Definition go_Encoder_PutRecordHeader : func := mkFunc [("e", GPtr (GNamed "Encoder")); ("key", GString); ("value", GString)] []
  [SIf [] (EBin Ne (EField (EVar "e") "err") ENil)
     [SReturn []]
     [];
   SExpr (EMethod (EVar "e") "PutVarString" [(EVar "key")]);
   SExpr (EMethod (EVar "e") "PutVarString" [(EVar "value")])].
(** message/encoder.go:174 *)
Definition go_Encoder_PutString : func := mkFunc [("e", GPtr (GNamed "Encoder")); ("s", GString)] []
  [SExpr (EMethod (EVar "e") "PutInt16" [(EConv (GInt I16) (ELen (EVar "s")))]);
   SIf [] (EBin Eq (EField (EVar "e") "err") ENil)
     [SAssign [(EVar "_"); (EField (EVar "e") "err")] [(ECall "io.WriteString" [(EField (EVar "e") "target"); (EVar "s")])]]
     []].
(** message/encoder.go:182 *)
Definition go_Encoder_PutStringArray : func := mkFunc [("e", GPtr (GNamed "Encoder")); ("ss", GSlice (GString))] []
  [SIf [] (EBin Ne (EField (EVar "e") "err") ENil)
     [SReturn []]
     [];
   SIf [] (EBin Eq (EVar "ss") ENil)
     [SExpr (EMethod (EVar "e") "PutInt32" [(ENeg (EInt 1))]);
      SReturn []]
     [];
   SDefine ["length"] [(ELen (EVar "ss"))];
   SExpr (EMethod (EVar "e") "PutArrayLength" [(EVar "length")]);
   SRange "_" "s" (EVar "ss")
     [SExpr (EMethod (EVar "e") "PutString" [(EVar "s")])]].
(** message/encoder.go:200 *)
Definition go_Encoder_PutVarBytes : func := mkFunc [("e", GPtr (GNamed "Encoder")); ("data", GSlice (GInt U8))] []
  [SIf [] (EBin Ne (EField (EVar "e") "err") ENil)
     [SReturn []]
     [];
   SExpr (EMethod (EVar "e") "PutVarInt" [(EConv (GInt I64) (ELen (EVar "data")))]);
   SAssign [(EVar "_"); (EField (EVar "e") "err")] [(EMethod (EField (EVar "e") "target") "Write" [(EVar "data")])]].
(** message/encoder.go:210 *)
Definition go_Encoder_PutVarInt : func := mkFunc [("e", GPtr (GNamed "Encoder")); ("i", GInt I64)] []
  [SIf [] (EBin Ne (EField (EVar "e") "err") ENil)
     [SReturn []]
     [];
   SDefine ["length"] [(ECall "binary.PutVarint" [(ESlice (EField (EVar "e") "buf") None None None); (EVar "i")])];
   SAssign [(EVar "_"); (EField (EVar "e") "err")] [(EMethod (EField (EVar "e") "target") "Write" [(ESlice (EField (EVar "e") "buf") (Some (EInt 0)) (Some (EVar "length")) None)])]].
(** message/encoder.go:220 *)
Definition go_Encoder_PutVarString : func := mkFunc [("e", GPtr (GNamed "Encoder")); ("s", GString)] []
  [SIf [] (EBin Ne (EField (EVar "e") "err") ENil)
     [SReturn []]
     [];
   SExpr (EMethod (EVar "e") "PutVarInt" [(EConv (GInt I64) (ELen (EVar "s")))]);
   SRange "_" "i" (EVar "s")
     [SDefine ["length"] [(ECall "utf8.EncodeRune" [(ESlice (EField (EVar "e") "buf") None None None); (EConv (GInt I32) (EVar "i"))])];
      SAssign [(EVar "_"); (EField (EVar "e") "err")] [(EMethod (EField (EVar "e") "target") "Write" [(ESlice (EField (EVar "e") "buf") (Some (EInt 0)) (Some (EVar "length")) None)])];
      SIf [] (EBin Ne (EField (EVar "e") "err") ENil)
       [SReturn []]
       []]].
(** message/sizeof/sizeof.go:31 *)
Definition go_sizeof_Bytes : func := mkFunc [("data", GSlice (GInt U8))] [GInt I32]
  [SReturn [(EBin Add (EGlobal "sizeof.ArrayLength") (EConv (GInt I32) (ELen (EVar "data"))))]].
(** message/sizeof/sizeof.go:36 *)
Definition go_sizeof_Int32Array : func := mkFunc [("ii", GSlice (GInt I32))] [GInt I32]
  [SReturn [(EBin Add (EGlobal "sizeof.ArrayLength") (EBin Mul (EConv (GInt I32) (ELen (EVar "ii"))) (EGlobal "sizeof.Int32")))]].
(** message/sizeof/sizeof.go:41 *)
Definition go_sizeof_Int64Array : func := mkFunc [("ii", GSlice (GInt I64))] [GInt I32]
  [SReturn [(EBin Add (EGlobal "sizeof.ArrayLength") (EBin Mul (EConv (GInt I32) (ELen (EVar "ii"))) (EGlobal "sizeof.Int64")))]].
(** message/sizeof/sizeof.go:46 *)
Definition go_sizeof_String : func := mkFunc [("s", GString)] [GInt I32]
  [SReturn [(EBin Add (EGlobal "sizeof.Int16") (EConv (GInt I32) (ELen (EVar "s"))))]].
(** message/sizeof/sizeof.go:51 *)
Definition go_sizeof_StringArray : func := mkFunc [("ss", GSlice (GString))] [GInt I32]
  [SVar "sz" (Some (GInt I32)) None;
   SOp (EVar "sz") Add (EGlobal "sizeof.ArrayLength");
   SRange "_" "s" (EVar "ss")
     [SOp (EVar "sz") Add (ECall "sizeof.String" [(EVar "s")])];
   SReturn [(EVar "sz")]].
(** message/sizeof/sizeof.go:61 *)
Definition go_sizeof_VarBytes : func := mkFunc [("data", GSlice (GInt U8))] [GInt I32]
  [SDefine ["length"] [(ELen (EVar "data"))];
   SReturn [(EBin Add (ECall "sizeof.VarInt" [(EConv (GInt I64) (EVar "length"))]) (EConv (GInt I32) (EVar "length")))]].
(** message/sizeof/sizeof.go:67 *)
Definition go_sizeof_VarInt : func := mkFunc [("i", GInt I64)] [GInt I32]
  [SVar "buf" (Some (GArray 16 (GInt U8))) None;
   SDefine ["length"] [(ECall "binary.PutVarint" [(ESlice (EVar "buf") None None None); (EVar "i")])];
   SReturn [(EConv (GInt I32) (EVar "length"))]].
(** message/sizeof/sizeof.go:74 *)
Definition go_sizeof_VarString : func := mkFunc [("s", GString)] [GInt I32]
  [SDefine ["length"] [(ELen (EVar "s"))];
   SReturn [(EBin Add (ECall "sizeof.VarInt" [(EConv (GInt I64) (EVar "length"))]) (EConv (GInt I32) (EVar "length")))]].

Definition source : package := mkPackage
  [("Decoder", [("raw", GSlice (GInt U8)); ("length", GInt INT); ("offset", GInt INT)]);
   ("Encoder", [("buf", GArray 16 (GInt U8)); ("target", GNamed "io.Writer"); ("err", GNamed "error")])]
  [("message.errNullString", (None, (ECall "errors.New" [(EStr [110; 117; 108; 108; 32; 115; 116; 114; 105; 110; 103])])));
   ("message.errVarIntOverflow", (None, (ECall "errors.New" [(EStr [118; 97; 114; 32; 105; 110; 116; 32; 111; 118; 101; 114; 102; 108; 111; 119])])));
   ("sizeof.Bool", ((Some (GInt I32)), (EInt 1)));
   ("sizeof.Int8", ((Some (GInt I32)), (EInt 1)));
   ("sizeof.Int16", ((Some (GInt I32)), (EInt 2)));
   ("sizeof.Int32", ((Some (GInt I32)), (EInt 4)));
   ("sizeof.Int64", ((Some (GInt I32)), (EInt 8)));
   ("sizeof.ArrayLength", (None, (EGlobal "sizeof.Int32")))]
  [("message.IsInsufficientDataError", go_message_IsInsufficientDataError);
   ("message.NewDecoder", go_message_NewDecoder);
   ("Decoder.Reset", go_Decoder_Reset);
   ("Decoder.remains", go_Decoder_remains);
   ("Decoder.ArrayLength", go_Decoder_ArrayLength);
   ("Decoder.Bool", go_Decoder_Bool);
   ("Decoder.Bytes", go_Decoder_Bytes);
   ("Decoder.Discard", go_Decoder_Discard);
   ("Decoder.Int8", go_Decoder_Int8);
   ("Decoder.Int16", go_Decoder_Int16);
   ("Decoder.Int32", go_Decoder_Int32);
   ("Decoder.Int32Array", go_Decoder_Int32Array);
   ("Decoder.Int64", go_Decoder_Int64);
   ("Decoder.Int64Array", go_Decoder_Int64Array);
   ("Decoder.NullableString", go_Decoder_NullableString);
   ("Decoder.String", go_Decoder_String);
   ("Decoder.StringArray", go_Decoder_StringArray);
   ("Decoder.VarBytes", go_Decoder_VarBytes);
   ("Decoder.VarInt", go_Decoder_VarInt);
   ("Decoder.VarString", go_Decoder_VarString);
   ("message.NewEncoder", go_message_NewEncoder);
   ("Encoder.Flush", go_Encoder_Flush);
   ("Encoder.PutArrayLength", go_Encoder_PutArrayLength);
   ("Encoder.PutBool", go_Encoder_PutBool);
   ("Encoder.PutBytes", go_Encoder_PutBytes);
   ("Encoder.PutInt8", go_Encoder_PutInt8);
   ("Encoder.PutInt16", go_Encoder_PutInt16);
   ("Encoder.PutInt32", go_Encoder_PutInt32);
   ("Encoder.PutInt32Array", go_Encoder_PutInt32Array);
   ("Encoder.PutInt64", go_Encoder_PutInt64);
   ("Encoder.PutInt64Array", go_Encoder_PutInt64Array);
   ("Encoder.PutNullableString", go_Encoder_PutNullableString);
   ("Encoder.PutRecordHeader", go_Encoder_PutRecordHeader);
   ("Encoder.PutString", go_Encoder_PutString);
   ("Encoder.PutStringArray", go_Encoder_PutStringArray);
   ("Encoder.PutVarBytes", go_Encoder_PutVarBytes);
   ("Encoder.PutVarInt", go_Encoder_PutVarInt);
   ("Encoder.PutVarString", go_Encoder_PutVarString);
   ("sizeof.Bytes", go_sizeof_Bytes);
   ("sizeof.Int32Array", go_sizeof_Int32Array);
   ("sizeof.Int64Array", go_sizeof_Int64Array);
   ("sizeof.String", go_sizeof_String);
   ("sizeof.StringArray", go_sizeof_StringArray);
   ("sizeof.VarBytes", go_sizeof_VarBytes);
   ("sizeof.VarInt", go_sizeof_VarInt);
   ("sizeof.VarString", go_sizeof_VarString)].
