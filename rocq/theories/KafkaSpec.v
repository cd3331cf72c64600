(** Messages to Kafka and the counters, from outside. *)
From Coq Require Import String Ascii.
From Verif Require Import Base StrOrder FrameModel JsonModel JsonSpec JsonTextSpec LiveSpec KafkaModel.
Local Open Scope string_scope.
Local Open Scope list_scope.
Local Open Scope Z_scope.

(** What a consumer does: two bytes give the length of the header, little endian; the header follows, then the data. *)
Definition takes_apart (m header data : list Z) : Prop :=
  exists lo hi rest, m = lo :: hi :: rest /\ 0 <= lo < 256 /\ 0 <= hi < 256 /\ let n := Z.to_nat (lo + 256 * hi) in (n <= List.length rest)%nat /\ header = firstn n rest /\ data = skipn n rest.
Definition byte_list (t : list ascii) : list Z := map (fun c => Z.of_nat (nat_of_ascii c)) t.

(** A member of the header *)
Definition says (doc : json) (path : list string) (x : json) : Prop := leads path doc x.
Inductive param_value : anyv -> json -> Prop := pv_int z : param_value (AU64 z) (JInt z) | pv_float b : param_value (AFloat b) (JDouble b) | pv_other t : param_value (AOther t) JNull.
Record describes (with_params : bool) (f : frame) (doc : json) : Prop := Describes {
  ds_size : says doc ["data_size"] (JInt (fr_data_size f));
  ds_type : says doc ["data_type"] (JInt (md_type (fr_meta f)));
  ds_number : says doc ["frame_number"] (JInt (md_number (fr_meta f)));
  ds_acq : says doc ["acquisition_id"] (JStr (md_acq (fr_meta f)));
  ds_compr : says doc ["compression"] (JInt (md_compr (fr_meta f)));
  ds_offset : says doc ["frame_offset"] (JInt (md_offset (fr_meta f)));
  ds_dims : says doc ["dims"] (JArr (map JInt (md_dims (fr_meta f))));
  ds_params : with_params = true -> forall n v, sm_get (md_params (fr_meta f)) n = Some v -> exists x, says doc ["parameters"; n] x /\ param_value v x;
  ds_no_params : with_params = false -> forall x, ~ says doc ["parameters"] x }.
(** Values that have a place in the header; names without zero bytes *)
Record plain_frame (f : frame) : Prop := PlainFrame {
  pf_size : 0 <= fr_data_size f < 2 ^ 64;
  pf_number : 0 <= md_number (fr_meta f) < 2 ^ 64;
  pf_offset : 0 <= md_offset (fr_meta f) < 2 ^ 64;
  pf_compr : 0 <= md_compr (fr_meta f) < 2 ^ 32;
  pf_dims : Forall (fun d => 0 <= d < 2 ^ 64) (md_dims (fr_meta f));
  pf_acq : no_nul (md_acq (fr_meta f));
  pf_params : sm_ok (md_params (fr_meta f));
  pf_names : forall n v, In (n, v) (md_params (fr_meta f)) -> no_nul n /\ forall z, v = AU64 z -> 0 <= z < 2 ^ 64 }.

(** A configuration in which each value has its type *)
Definition typed (c : msg) : Prop :=
  (forall n, In n ["servers"; "topic"; "dataset"] -> given c n None \/ exists s, given c n (Some (JStr s))) /\
  (given c "partition" None \/ exists z, 0 <= z < 2 ^ 32 /\ given c "partition" (Some (JInt z))) /\
  (given c "include_parameters" None \/ exists b, given c "include_parameters" (Some (JBool b))).
(** The library accepts what the configuration names. *)
Definition accepted (k : klib) (c : msg) : Prop := (forall s, given c "servers" (Some (JStr s)) -> kl_servers k (cstr s) = true) /\ forall n, kl_topic k n = true.
(** How many frames are of the dataset that is configured when they come, and taken ([ok]) or refused by the library; nothing is configured in
    the middle of a frame, and the counters are not reset. *)
Inductive due (ok : bool) : string -> list kevent -> nat -> Prop :=
| du_nil d : due ok d [] 0
| du_frame d f r t n : md_dataset (fr_meta f) = d -> due ok d t n -> due ok d (KFrame f ok r [] :: t) (S n)
| du_frame' d f r t n : md_dataset (fr_meta f) = d -> due ok d t n -> due ok d (KFrame f (negb ok) r [] :: t) n
| du_other d f b r t n : md_dataset (fr_meta f) <> d -> due ok d t n -> due ok d (KFrame f b r [] :: t) n
| du_config d c r t n : given c "dataset" None -> due ok d t n -> due ok d (KConfig c r :: t) n
| du_dataset d c s r t n : given c "dataset" (Some (JStr s)) -> due ok (cstr s) t n -> due ok d (KConfig c r :: t) n
| du_poll d r t n : due ok d t n -> due ok d (KPoll r :: t) n.
(** The messages produced, in a log *)
Fixpoint messages (l : list kentry) : list (list Z) := match l with KeFrame (Ret (Some b)) _ :: r => b :: messages r | _ :: r => messages r | [] => [] end.
(** The reports of delivery in an event *)
Definition reports_of (e : kevent) : list bool := match e with KFrame _ _ r l => r ++ flat_map snd l | KConfig _ r => r | KPoll r => r | KReset => [] end.
(** What a configuration does to the settings: text, flags and numbers as given, else as before; the connection is made anew if servers are given. *)
Record configured (k : klib) (c : msg) (p q : kafka) : Prop := Configured {
  cf_dataset : (given c "dataset" None -> kp_dataset q = kp_dataset p) /\ forall s, given c "dataset" (Some (JStr s)) -> kp_dataset q = cstr s;
  cf_partition : (given c "partition" None -> kp_partition q = kp_partition p) /\ forall z, given c "partition" (Some (JInt z)) -> 0 <= z < 2 ^ 31 -> kp_partition q = z;
  cf_parameters : (given c "include_parameters" None -> kp_parameters q = kp_parameters p) /\ forall b, given c "include_parameters" (Some (JBool b)) -> kp_parameters q = b;
  cf_servers : (given c "servers" None -> kp_servers q = kp_servers p /\ kp_producer q = kp_producer p) /\
    forall s, given c "servers" (Some (JStr s)) -> (kl_servers k (cstr s) = true -> kp_servers q = cstr s /\ kp_producer q = true) /\ (kl_servers k (cstr s) = false -> kp_servers q = kp_servers p /\ kp_producer q = false /\ kp_topic q = false);
  cf_topic : (forall n, given c "topic" (Some (JStr n)) -> if kp_producer q then kp_topic_name q = cstr n /\ kp_topic q = kl_topic k (cstr n) else kp_topic_name q = kp_topic_name p /\ kp_topic q = false) /\
    (given c "topic" None -> kp_topic_name q = kp_topic_name p /\ (given c "servers" None -> kp_topic q = kp_topic p) /\ forall s, given c "servers" (Some (JStr s)) -> kp_topic q = (kp_producer q && kl_topic k (kp_topic_name p))%bool);
  cf_counts : kp_sent q = kp_sent p /\ kp_lost q = kp_lost p }.
