(** Vocabulary for C61: what the API functions that report results and events
    must record. *)
From Verif Require Import VmTypes CodecSpec MemSpec BigSpec ApiArgsSpec QuerySpec.

(** [reported h m c d]: the call [c] appends the result [d] *)
Definition reported (h : host) (m : bytes) (c : api_call) (d : bytes) : Prop :=
  match c with
  | A_finish o l => data_at m o l d
  | A_smallIntFinishUnsigned v => unsigned_bytes (u64 (i64 v)) d
  | A_smallIntFinishSigned v | A_int64finish v => signed_bytes (i64 v) d
  | A_bigIntFinishUnsigned x => unsigned_bytes (held h x) d
  | A_bigIntFinishSigned x => signed_bytes (held h x) d
  | _ => False
  end.

(** an event of contract [a]: the first topic is its identifier *)
Definition event_entry (a : bytes) (topics : list bytes) (data : bytes) : log_entry :=
  match topics with
  | [] => mkLog a [] [] data
  | t :: ts => mkLog a t ts data
  end.

(** [announced m c topics data]: the call [c] asks for an event with these
    topics and this data.  writeLog reads topics of 32 bytes lying one after the
    other; writeEventLog reads a vector of byte strings (as in C05). *)
Definition announced (m : bytes) (c : api_call) (topics : list bytes) (data : bytes) : Prop :=
  match c with
  | A_writeLog o l tp n =>
      data_at m o l data /\ 0 <= i32 tp /\ i32 tp + 32 * i32 n <= max_i32 /\
      Z.of_nat (length topics) = i32 n /\
      forall j t, topics !! j = Some t -> bytes_at m (i32 tp + 32 * Z.of_nat j) 32 t
  | A_writeEventLog n lo tp o l =>
      data_at m o l data /\ vector_readable m (i32 n) (i32 lo) (i32 tp) /\ 4 * i32 n <= max_i32 /\
      topics = arg_windows m (i32 tp) (arg_lens m (i32 lo) (Z.to_nat (i32 n)))
  | _ => False
  end.

(** [h] with one more result, or one more event *)
Definition with_result (d : bytes) (h : host) : host :=
  set_h_out (set_o_retdata (o_retdata (h_out h) ++ [d]) (h_out h)) h.
Definition with_event (e : log_entry) (h : host) : host :=
  set_h_out (set_o_logs (o_logs (h_out h) ++ [e]) (h_out h)) h.
