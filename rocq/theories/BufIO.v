(** * The buffered writer under the encoder of a connection

    gen.conn.go:73 puts a [bufio.Writer] (Go 1.13, src/bufio/bufio.go:547-720)
    between the encoder and the connection.

    Simplification: the connection obeys the contract of io.Writer (a Write
    without an error has written everything), so that [io.ErrShortWrite] does
    not occur. *)
From Verif Require Import GoBase Encoder.

(** The Write method of the connection, an arbitrary function of the data of
    all earlier Writes: [None] if everything was written, [Some (n, x)] if it
    failed with error [x] after [n] bytes.  [c_direct] says whether a write to
    the buffered writer larger than the space left may bypass the empty buffer:
    Write does (bufio.go:633-636), WriteString does not (bufio.go:700-706); any
    choice per write is covered. *)
Record rawconn := mkRaw {
  c_write : list (list Z) -> list Z -> option (Z * error);
  c_direct : list (list Z) -> list Z -> bool }.

(** bufio.go:558-563: pending bytes and kept error; [b_log] is the data of all
    Writes made to the connection and [b_sent] the bytes it accepted, one
    element per Write. *)
Record bufio := mkBuf { b_buf : list Z; b_err : option error; b_log : list (list Z); b_sent : list (list Z) }.

(** bufio.go:44 defaultBufSize *)
Definition buf_size : Z := 4096.

(** bufio.NewWriter (bufio.go:565-590) *)
Definition NewWriter : bufio := mkBuf [] None [] [].

(** What the connection accepts of [data]. *)
Definition accepted (r : option (Z * error)) (data : list Z) : list Z :=
  match r with None => data | Some (n, _) => firstn (Z.to_nat n) data end.

(** Flush (bufio.go:598-618) *)
Definition b_flush (c : rawconn) (b : bufio) : bufio :=
  match b_err b with
  | Some _ => b
  | None =>
      match b_buf b with
      | [] => b
      | buf =>
          let r := c_write c (b_log b) buf in
          let log := b_log b ++ [buf] in
          let sent := b_sent b ++ [accepted r buf] in
          match r with
          | None => mkBuf [] None log sent
          | Some (n, x) => mkBuf (skipn (Z.to_nat n) buf) (Some x) log sent
          end
      end
  end.

(** Write and WriteString (bufio.go:626-651, 694-714); the loop is given [fuel]
    iterations. *)
Fixpoint b_write_loop (fuel : nat) (c : rawconn) (data : list Z) (b : bufio) : bufio :=
  match fuel with
  | O => b
  | S fuel' =>
      match b_err b with
      | Some _ => b
      | None =>
          let avail := buf_size - zlen (b_buf b) in
          if avail <? zlen data then
            if (zlen (b_buf b) =? 0) && c_direct c (b_log b) data then
              let r := c_write c (b_log b) data in
              let log := b_log b ++ [data] in
              let sent := b_sent b ++ [accepted r data] in
              match r with
              | None => mkBuf [] None log sent
              | Some (_, x) => mkBuf [] (Some x) log sent
              end
            else
              b_write_loop fuel' c (skipn (Z.to_nat avail) data)
                (b_flush c (mkBuf (b_buf b ++ firstn (Z.to_nat avail) data) None (b_log b) (b_sent b)))
          else mkBuf (b_buf b ++ data) None (b_log b) (b_sent b)
      end
  end.
Definition b_write (c : rawconn) (data : list Z) (b : bufio) : bufio :=
  b_write_loop (length data + 2) c data b.

(** All the writes in [log], one after the other. *)
Definition replay (c : rawconn) (log : list (list Z)) (b : bufio) : bufio :=
  fold_left (fun b data => b_write c data b) log b.

(** The buffered writer in state [b] as the target of an encoder: the error of a
    write is the one kept by the buffered writer after it. *)
Definition target_of (c : rawconn) (b : bufio) : target :=
  mkTarget (fun log data => b_err (b_write c data (replay c log b)))
           (Some (fun log => b_err (b_flush c (replay c log b)))) [].

(** gen.conn.go:165-166: [encode(c.encoder, id); err := c.encoder.Flush()] on an
    encoder with error [err] over the buffered writer [b]: the encoder's error,
    the buffered writer, and the result of Flush. *)
Definition transmit (c : rawconn) (act : Encoder -> Encoder) (err : option error) (b : bufio)
  : option error * bufio * option error :=
  let e := act (mkEncoder (target_of c b) err) in
  let b1 := replay c (t_log (e_target e)) b in
  (e_err e, match e_err e with Some _ => b1 | None => b_flush c b1 end, Flush e).
