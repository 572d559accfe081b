(** * Vocabulary for data races in the ring buffer

    What Go's memory model calls a data race: two accesses to one place, at least one
    of them a write, neither of which happens before the other.  In the ring the only
    places that are not accessed through sync/atomic or a channel are the cells of
    [data]; the writer writes them (line 96), the reader reads them (line 146). *)
From Verif Require Import GoBase Ring RingSpec.

Inductive party := Writer | Reader.
(** The steps of an execution: the state each was taken in, and its label. *)
Fixpoint trace (g : ring) (sched : list label) : list (ring * label) :=
  match sched with
  | [] => []
  | a :: rest => (g, a) :: match step g a with Some (g', _) => trace g' rest | None => [] end
  end.
(** The step accesses this cell of [data]. *)
Definition access (s : ring * label) : option (party * Z) :=
  match s with
  | (g, WStep) => match g_w g with
                  | WLoop l => if w_i l <? w_n l then Some (Writer, w_pos l) else None
                  | _ => None end
  | (g, RStep) => match g_r g with
                  | RLoop l => if (r_i l <? r_n l) && negb (r_pos l =? r_next l) then Some (Reader, r_pos l) else None
                  | RGet l => Some (Reader, r_pos l)
                  | _ => None end
  | _ => None
  end.
(** Who stores to the variable the other side loads: the writer to [next] (lines 102
    and 115), the reader to [start] (lines 135 and 151). *)
Definition atomic_store (s : ring * label) : option party :=
  match s with
  | (g, WStep) => match g_w g with
                  | WFullStore _ => Some Writer
                  | WLoop l => if w_i l <? w_n l then None else Some Writer
                  | _ => None end
  | (g, RStep) => match g_r g with
                  | RLoop l => if (r_i l <? r_n l) && negb (r_pos l =? r_next l) then None else Some Reader
                  | _ => None end
  | _ => None
  end.
(** Who loads the variable the other side stores to: the writer [start] (lines 91 and
    108), the reader [next] (lines 129 and 140). *)
Definition atomic_load (s : ring * label) : option party :=
  match s with
  | (g, WStep) => match g_w g with WLoadStart _ _ _ | WFullLoad _ => Some Writer | _ => None end
  | (g, RStep) => match g_r g with RLoadNext _ _ _ | REmptyLoad _ => Some Reader | _ => None end
  | _ => None
  end.
(** Sender and receiver meet on an unbuffered channel. *)
Definition rendezvous (s : ring * label) : Prop := snd s = SyncRead \/ snd s = SyncWrite.

(** Step [i], taken by [p], happens before step [j], taken by the other party: after
    [i], [p] stores to its variable and later, before [j], the other party loads it; or
    they meet on a channel in between.  (Go has more edges, through the compare-and-swap
    of the locks.  They are not used, so what is ordered here is ordered in Go.) *)
Definition happens_before (tr : list (ring * label)) (i j : nat) (p : party) : Prop :=
  (exists k l s t q, (i < k < l)%nat /\ (l < j)%nat /\ nth_error tr k = Some s /\ nth_error tr l = Some t /\
     atomic_store s = Some p /\ atomic_load t = Some q /\ q <> p) \/
  (exists m s, (i < m < j)%nat /\ nth_error tr m = Some s /\ rendezvous s).
(** Two accesses of one cell by different parties, of which the earlier does not happen
    before the later.  (The later does not happen before the earlier either: what
    happens before comes before.) *)
Definition race (tr : list (ring * label)) : Prop :=
  exists i j s t p q c, (i < j)%nat /\ nth_error tr i = Some s /\ nth_error tr j = Some t /\
    access s = Some (p, c) /\ access t = Some (q, c) /\ p <> q /\ ~ happens_before tr i j p.
(** Steps in which the reader takes no part. *)
Definition not_reader (a : label) : Prop := match a with RStep | RCall _ _ | RDone | SyncRead | SyncWrite => False | _ => True end.
(** The reader reads a cell, the writer later writes it, and in between the reader does
    nothing at all: a race by whatever edges one counts. *)
Definition plain_race (tr : list (ring * label)) : Prop :=
  exists i j s t c, (i < j)%nat /\ nth_error tr i = Some s /\ nth_error tr j = Some t /\
    access s = Some (Reader, c) /\ access t = Some (Writer, c) /\
    forall k u, (i < k < j)%nat -> nth_error tr k = Some u -> not_reader (snd u).
