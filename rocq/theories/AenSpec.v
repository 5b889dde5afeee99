(* What a user expects of the audio encoder. *)
From Coq Require Import ZArith List Bool.
From Verif Require Import NamesModel AdcModel AenModel.
Import ListNotations.
Local Open Scope list_scope.
Local Open Scope Z_scope.

(* The sample format each codec is fed with. *)
Definition feeds (c : ACodecType) (f : SampleFmt) : Prop :=
  (In c [PCM; PCMU; OPUS; AAC] /\ f = S16) \/ (c = MP3 /\ f = S16P).

(* The library has an encoder [k] for the request: it can be opened with the
   channels, rate and bit rate asked for and, except for PCM, lists the
   format, rate and channels; there is memory [mem]. *)
Definition offered (c : ACodecType) (ch rate bit : Z) (a : answers) (k : libcodec) (mem : list Z) : Prop :=
  aFind a = Some k /\ aCtx a = true /\ aMem a = Some mem /\ lopen k ch rate bit = true /\
  exists f, feeds c f /\
    (In c [PCM; PCMU] \/
     In f (lfmts k) /\ (exists l, lrates k = Some l /\ In rate l) /\ (exists l, lchans k = Some l /\ In ch l)).

(* A request that names everything. *)
Definition full (c : ACodecType) (ch rate bit : Z) : erequest := mkEReq (Some c) (Some ch) (Some rate) (Some bit).

(* The parts of a history of frames: what the converter made of them, what
   the encoder was given, what of it the converter had written. *)
Definition made (rs : list eround) : list Z := concat (map rnew rs).
Definition given (x : option (list Z) * nat * eresult) : list Z :=
  match x with (Some d, _, _) => d | (None, _, _) => [] end.
Definition fresh (x : option (list Z) * nat * eresult) : list Z :=
  match x with (Some d, w, _) => firstn w d | (None, _, _) => [] end.

(* The answer to a frame all of whose samples [n] were encoded. *)
Definition encoded (n : nat) (r : eround) (x : option (list Z) * nat * eresult) : Prop :=
  match x with (d, w, y) =>
    d = Some (rnew r) /\ w = n /\
    match renc r with
    | EPacket num z => y = EDelivered (mkP num z (Z.of_nat n) (rpts r) (rorg r) (rseq r))
    | _ => y = ERefused
    end
  end.

(* The samples a converter from [ri] to [ro] Hz has made of [k] frames of [n]
   samples. *)
Definition pace (ro ri n k : Z) : Z := k * n * ro / ri.
