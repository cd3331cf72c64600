(** What the process plugin of the dummy detector hands to the file writer. *)
From Coq Require Import String.
From Verif Require Import Base AcqModel.
Local Open Scope N_scope.
Local Open Scope string_scope.
Local Open Scope list_scope.

(** DummyUDPProcessPlugin.cpp:225-276 (process_frame): the meta data of the frame pushed and its bytes, for an entry (frame number of the
    header, image) of y_out (LoopModel.process_frame).  The other fields of FrameMetaData and Frame have their defaults: no offset and
    acquisition id, no parameters (FrameMetaData.cpp:21-28), outer chunk size 1 (Frame.cpp:11-18).  frame_number of the header is
    uint32_t. *)
Definition image_frame (width height : Z) (x : Z * list Z) : frame :=
  Frame (Z.to_N (fst x)) 0 "dummy" "" T16 CNone [Z.to_N height; Z.to_N width] [] 1 (map Z.to_N (snd x)).
