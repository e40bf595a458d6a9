(** C128: devices whose faults come and go. *)
From Verif Require Import Base Types Buffer Page Column Header Metadata Decomp Data Reader
  SpecBuffer SpecReader SpecFile Samples SpecAsk Change SpecChange Disk SpecDisk Device ProofDevice.
Local Open Scope N_scope.

(** Whatever the device does and however the file changes, what a client sees is what it sees of
    one file which stays as it is, either whole or behind its last byte with a fault which
    stays. *)
Theorem C128_one_disk : forall seen fault c flt ops, exists content b,
  from_versions seen content /\ (b = true -> exists k, fault k <> None)
  /\ session c (device_source seen fault) flt device_open ops
     = session c (disk_source b) flt (disk_open content) ops.
Proof. exact device_one_disk. Qed.
Print Assumptions C128_one_disk.

(** When the file stays as it is, no fault is passed over: the session is the one without any
    fault, or there is an exception, from the constructor or from one call, before which all is
    as without the fault. *)
Theorem C128_reported_partial : forall content fault c flt ops,
  with_fault ops (session c file_source flt (file_open content) ops)
    (session c (device_source (fun _ => content) fault) flt device_open ops).
Proof. exact device_reported. Qed.
Print Assumptions C128_reported_partial.

(** Without faults it is the stream of C127. *)
Theorem C128_no_fault : forall seen c flt ops,
  session c (device_source seen (fun _ => None)) flt device_open ops
  = session c (changing_source seen) flt changing_open ops.
Proof. exact device_sound. Qed.
Print Assumptions C128_no_fault.

(** What is seen: the answers, the rows and the number of calls of end_of_data. *)
Definition device_run (content : bytes) (fault : nat -> option N) (ops : list op)
  : res (list (res out * list (N * bytes) * N)) :=
  rmap (fun x => short 12 (snd x))
    (session sample_cfg (device_source (fun _ => content) fault) None device_open ops).

(** The device fails once, in the fourth read (the second page), behind 80 bytes. *)
Definition once (k : nat) : option N := if (k =? 3)%nat then Some 80 else None.

(** A fault in a read which is not made is not seen; nor is one behind the bytes asked for. *)
Example C128_case :
  device_run sample_file once [OpReadRows 2]
  = Ok [(Ok (OBool true), [(0, bs "AAAAAAAAabcd"); (1, bs "BBBBBBBBefgh")], 0)]
  /\ device_run sample_file once [OpReadRow; OpReadRows 4]
     = Ok [(Ok (OBool true), [(0, bs "AAAAAAAAabcd")], 0);
           (Exn E_cannot_read_page, [(1, bs "BBBBBBBBefgh")], 0)]
  /\ device_run sample_file (fun _ => Some 800) [OpSkip 5; OpReadAll]
     = Ok [(Ok (OBool true), [], 0); (Ok OUnit, [(5, bs "FFFFFFFFuvwx")], 1)]
  /\ device_run sample_file (fun _ => Some 0) [OpReadAll] = Exn E_header_too_short.
Proof. vm_compute. repeat split; reflexivity. Qed.

(** A device which has recovered is not read again: the stream keeps badbit, the Reader does not
    clear it, and no further row can be had; the calls say that the data has ended. *)
Theorem C128_recovered_refuted : exists content fault,
  (forall k, k <> 3%nat -> fault k = None) /\ content = sample_file
  /\ device_run content fault [OpReadAll; OpReadAll; OpReadRow; OpSkip 1]
     = Ok [(Exn E_cannot_read_page, [(0, bs "AAAAAAAAabcd"); (1, bs "BBBBBBBBefgh")], 0);
           (Ok OUnit, [], 1); (Ok (OBool false), [], 1); (Ok (OBool false), [], 1)].
Proof.
  exists sample_file, once. split.
  - intros k H. unfold once. apply PeanoNat.Nat.eqb_neq in H. rewrite H. reflexivity.
  - split; [reflexivity|]. vm_compute. reflexivity.
Qed.
Print Assumptions C128_recovered_refuted.
