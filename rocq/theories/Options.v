(** * Model of gen.option.go and of dial (gen.conn.go:53-59) *)
From Coq Require Import String.
From Verif Require Import GoBase.
Local Open Scope Z_scope.

(** Go pointers of some type: nil or the identity of what is pointed to. *)
Definition pointer : Type := option Z.

(** [*net.Dialer]: a new [&net.Dialer{}] of this package or a pointer of the caller,
    never nil after buildConfig (theorem C52). *)
Inductive dialer := NewDialer | CallersDialer (p : Z).

(** gen.option.go:26-30; [clientID] is a string of ASCII characters. *)
Record config := mkConfig { f_clientID : string; f_dialer : dialer; f_tls : pointer }.

(** gen.option.go:24 *)
Definition defaultClientID : string := "github.com/savaki/kafka".

(** gen.option.go:33: a function on [*config]; [None] is the nil function. *)
Definition Option : Type := option (config -> config).

(** gen.option.go:36-44 *)
Definition WithDialer (d : pointer) : Option := Some (fun c =>
  match d with
  | None => mkConfig (f_clientID c) NewDialer (f_tls c)
  | Some p => mkConfig (f_clientID c) (CallersDialer p) (f_tls c)
  end).

(** gen.option.go:47-51 *)
Definition WithTLS (t : pointer) : Option := Some (fun c => mkConfig (f_clientID c) (f_dialer c) t).

(** gen.option.go:53-62; [None]: panic (call of a nil function). *)
Definition buildConfig (opts : list Option) : option config :=
  fold_left (fun c o => match c, o with Some c, Some f => Some (f c) | _, _ => None end) opts
    (Some (mkConfig defaultClientID NewDialer None)).

(** gen.conn.go:53-59: what is called to open the network connection. *)
Inductive dialing := Plain (d : dialer) (addr : gostring) | Tls (d : dialer) (addr : gostring) (t : Z).
Definition dial (c : config) (addr : gostring) : dialing :=
  match f_tls c with
  | None => Plain (f_dialer c) addr
  | Some t => Tls (f_dialer c) addr t
  end.
