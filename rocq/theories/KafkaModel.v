(** The Kafka producer.  frameProcessor/src/KafkaProducerPlugin.cpp *)
From Coq Require Import String Ascii.
From Verif Require Import Base StrOrder FrameModel JsonModel JsonTextModel LiveModel.
Local Open Scope string_scope.
Local Open Scope list_scope.

(** The members, KafkaProducerPlugin.h:104-129.  [kp_producer], [kp_topic]: the handles are not NULL.  Both handles belong together: a topic
    handle is destroyed before its producer.  RD_KAFKA_PARTITION_UA is -1. *)
Record kafka := Kafka { kp_dataset : string; kp_topic_name : string; kp_servers : string; kp_partition : Z; kp_producer : bool; kp_topic : bool; kp_sent : Z; kp_lost : Z; kp_ack : Z; kp_parameters : bool }.
Definition with_handles s pr t (p : kafka) := Kafka (kp_dataset p) (kp_topic_name p) s (kp_partition p) pr t (kp_sent p) (kp_lost p) (kp_ack p) (kp_parameters p).
Definition with_topic n t (p : kafka) := Kafka (kp_dataset p) n (kp_servers p) (kp_partition p) (kp_producer p) t (kp_sent p) (kp_lost p) (kp_ack p) (kp_parameters p).
Definition with_partition v (p : kafka) := Kafka (kp_dataset p) (kp_topic_name p) (kp_servers p) v (kp_producer p) (kp_topic p) (kp_sent p) (kp_lost p) (kp_ack p) (kp_parameters p).
Definition with_dataset d (p : kafka) := Kafka d (kp_topic_name p) (kp_servers p) (kp_partition p) (kp_producer p) (kp_topic p) (kp_sent p) (kp_lost p) (kp_ack p) (kp_parameters p).
Definition with_parameters b (p : kafka) := Kafka (kp_dataset p) (kp_topic_name p) (kp_servers p) (kp_partition p) (kp_producer p) (kp_topic p) (kp_sent p) (kp_lost p) (kp_ack p) b.
Definition with_counts s l a (p : kafka) := Kafka (kp_dataset p) (kp_topic_name p) (kp_servers p) (kp_partition p) (kp_producer p) (kp_topic p) s l a (kp_parameters p).

(** Constructor, lines 51-61 *)
Definition new_kafka : kafka := Kafka "data" "data" "" (-1) false false 0 0 0 true.

(** The library and the text of doubles.  [kl_servers s]: all of the calls of configure_kafka_servers succeed.  [kl_topic n]: rd_kafka_topic_new
    succeeds.  [kl_garbage i]: byte i of fresh memory.  [kl_memory]: malloc succeeds up to that size. *)
Record klib := Klib { kl_servers : string -> bool; kl_topic : string -> bool; kl_garbage : nat -> Z; kl_memory : Z; kl_double : Z -> list ascii }.

(** The header, lines 302-341.  Numbers are converted to unsigned long, the compression to unsigned int.  A float is a double by its bits. *)
Definition u64w (z : Z) : json := JInt (z mod 2 ^ 64).
Definition param_json (v : anyv) : json := match v with AU64 z => u64w z | AFloat b => JDouble b | AOther _ => JNull end.
Definition kafka_header (p : kafka) (f : frame) : json :=
  let m := fr_meta f in
  JObj ([("data_size", u64w (fr_data_size f)); ("data_type", JInt (md_type m)); ("frame_number", u64w (md_number m)); ("acquisition_id", JStr (cstr (md_acq m)));
         ("compression", JInt (md_compr m mod 2 ^ 32)); ("frame_offset", u64w (md_offset m)); ("dims", JArr (map u64w (md_dims m)))]
        ++ if kp_parameters p then [("parameters", JObj (map (fun e => (cstr (fst e), param_json (snd e))) (md_params m)))] else []).

(** create_message, lines 298-365.  [Ret None]: NULL.  The length is stored as a little endian uint16_t. *)
Definition bytes_text (l : list ascii) : list Z := map (fun c => Z.of_nat (nat_of_ascii c)) l.
Definition create_message (k : klib) (p : kafka) (f : frame) : outcome fexc (option (list Z)) :=
  let text := bytes_text (write (kl_double k) (kafka_header p f)) in
  let size := Z.of_nat (List.length text) in
  if (65535 <? size)%Z then Ret None
  else
    let message_size := ((2 + size + 1 + fr_data_size f) mod 2 ^ 64)%Z in
    let header_size := ((size + 1) mod 2 ^ 16)%Z in
    if (kl_memory k <? message_size)%Z then Undef                                 (* the result of malloc is not tested *)
    else if (Z.of_nat (List.length (fr_mem f)) <? fr_data_size f)%Z then Undef
    else
      let written := [header_size mod 256; header_size / 256]%Z ++ firstn (Z.to_nat header_size) (text ++ [0%Z]) ++ firstn (Z.to_nat (fr_data_size f)) (fr_mem f) in
      if (message_size <? Z.of_nat (List.length written))%Z then Undef
      else Ret (Some (written ++ map (kl_garbage k) (seq 0 (Z.to_nat (message_size - Z.of_nat (List.length written)))))).

(** Reports of delivery served by rd_kafka_poll and rd_kafka_flush: on_message_ack, lines 416-419, and on_message_error.  True: no error. *)
Definition count_up (n : Z) : Z := ((n + 1) mod 2 ^ 32)%Z.
Definition report (p : kafka) (ok : bool) : kafka := if ok then with_counts (kp_sent p) (kp_lost p) (count_up (kp_ack p)) p else p.
Definition reports (l : list bool) (p : kafka) : kafka := fold_left report l p.

(** enqueue_frame from line 380 on, under the lock.  [ok]: rd_kafka_produce returns 0; [r]: the reports served by the poll.  The second
    result: the message, if produced.  NULL handles in the calls are undefined. *)
Definition enqueue_locked (k : klib) (ok : bool) (r : list bool) (p : kafka) (f : frame) : kafka * outcome fexc (option (list Z)) :=
  match create_message k p f with
  | Ret None => (p, Ret None)
  | Ret (Some b) =>
    if kp_topic p && kp_producer p then
      let q := if ok then with_counts (count_up (kp_sent p)) (kp_lost p) (kp_ack p) p else with_counts (kp_sent p) (count_up (kp_lost p)) (kp_ack p) p in
      (reports r q, Ret (if ok then Some b else None))
    else (p, Undef)
  | Throw e => (p, Throw e)
  | Undef => (p, Undef)
  end.

(** destroy_kafka, lines 158-169; [r]: the reports served by the flush *)
Definition destroy_kafka (r : list bool) (p : kafka) : kafka := with_handles (kp_servers p) false false (if kp_topic p then reports r p else p).
(** configure_kafka_servers, lines 188-236.  Before the call the producer was destroyed. *)
Definition configure_servers (k : klib) (s : string) (p : kafka) : kafka := if kl_servers k s then with_handles s true (kp_topic p) p else p.
(** configure_kafka_topic, lines 243-268 *)
Definition configure_topic (k : klib) (n : string) (p : kafka) : kafka := if kp_producer p then with_topic n (kl_topic k n) p else with_topic (kp_topic_name p) false p.
(** configure, lines 80-105.  The partition goes from uint32_t to int32_t.  [r]: the reports served by the flush.  Under the lock. *)
Definition kstep (c : msg) (name : string) (g : getter) (before : kafka -> kafka) (set : result -> kafka -> kafka) (st : kafka * outcome ipcexc unit) : kafka * outcome ipcexc unit :=
  match st with
  | (p, Ret _) =>
    match has_param c name with
    | Ret true => match get_param g c name with Ret v => (set v (before p), Ret tt) | Throw e => (before p, Throw e) | Undef => (before p, Undef) end
    | Ret false => (p, Ret tt)
    | Throw e => (p, Throw e)
    | Undef => (p, Undef)
    end
  | e => e
  end.
Definition flag (r : result) : bool := match r with RBool b => b | _ => false end.
Definition kafka_configure (k : klib) (r : list bool) (c : msg) (p : kafka) : kafka * outcome ipcexc unit :=
  kstep c "include_parameters" GBool (fun p => p) (fun v => with_parameters (flag v))
  (kstep c "dataset" GStr (fun p => p) (fun v => with_dataset (str v))
  (kstep c "partition" GUint (fun p => p) (fun v => with_partition (i32 (num v)))
  (kstep c "topic" GStr (fun p => p) (fun v => configure_topic k (str v))
  (kstep c "servers" GStr (destroy_kafka r) (fun v q => let q1 := configure_servers k (str v) q in configure_topic k (kp_topic_name q1) q1) (p, Ret tt))))).

(** What happens to one plugin.  [KFrame f ok r c]: process_frame, lines 434-441 and 372-411; the dataset and the topic handle are tested
    without the lock: configurations [c] may come between the tests and the lock (with their reports).  [KPoll]: the poll of status, lines 173-180.
    [KReset]: reset_statistics. *)
Inductive kevent := KFrame (f : frame) (ok : bool) (r : list bool) (between : list (msg * list bool)) | KConfig (c : msg) (r : list bool) | KPoll (r : list bool) | KReset.
(** For a frame: the message produced, and what is pushed *)
Inductive kentry := KeFrame (o : outcome fexc (option (list Z))) (pushed : outcome fexc (list frame)) | KeConfig (o : outcome ipcexc unit) | KeOther.
Definition configure_all (k : klib) (l : list (msg * list bool)) (p : kafka) : kafka := fold_left (fun p e => fst (kafka_configure k (snd e) (fst e) p)) l p.
Definition kafka_step (k : klib) (p : kafka) (e : kevent) : kafka * kentry :=
  match e with
  | KFrame f ok r l =>
    if String.eqb (md_dataset (fr_meta f)) (kp_dataset p) && kp_topic p then
      let '(q, o) := enqueue_locked k ok r (configure_all k l p) f in
      (q, KeFrame o (match o with Ret b => push f | Throw e => Throw e | Undef => Undef end))
    else (configure_all k l p, KeFrame (Ret None) (push f))
  | KConfig c r => let '(q, o) := kafka_configure k r c p in (q, KeConfig o)
  | KPoll r => (if kp_producer p then reports r p else p, KeOther)
  | KReset => (with_counts 0 0 0 p, KeOther)
  end.
Fixpoint kafka_run (k : klib) (p : kafka) (l : list kevent) : kafka * list kentry :=
  match l with [] => (p, []) | e :: r => let '(p1, x) := kafka_step k p e in let '(p2, xs) := kafka_run k p1 r in (p2, x :: xs) end.
