(** C45: the codes the models answer with are the ones whose messages say what happened. *)
From Coq Require Import String.
From Verif Require Import Base StrModel TextModel.
From Verif Require ElfModel HjModel InsnQModel IntrModel ItpModel LibModel MetaModel OptModel PostModel PtModel RetryModel TrModel X86Model.

Local Open Scope string_scope.
Local Open Scope Z_scope.

(** The message printed for each libpulp code that a modelled function answers with, from whichever part it comes. *)
Theorem C45_codes_have_their_messages : forall strerror : Z -> list Z,
  let says c t := libpulp_strerror strerror c = zs t in
  says LibModel.EUNKNOWN "Unknown error" /\ says LibModel.EBUILDID "Build ID mismatch" /\ says PtModel.ETARGETHOOK "Error attaching to process" /\
  says IntrModel.ENODEBUGTAG "Process without debug tag" /\ says IntrModel.ENOLINKMAP "No link map in object" /\ says IntrModel.ENOPHDR "Invalid program header" /\
  says IntrModel.ENOPENTRY "Unable to find process entry address" /\ says IntrModel.ENOLIBPULP "Libpulp not found in target process" /\
  says HjModel.ETHRDATTACH "Thread attach failure" /\ says HjModel.ETHRDDETTACH "Thread dettach failure" /\
  says MetaModel.EINVALIDULP "Invalid .ulp file" /\ says ElfModel.EINVALIDULP "Invalid .ulp file" /\
  says LibModel.ENOOLDFUNC "To be patched function not found" /\ says LibModel.ENONEWFUNC "New function not found" /\ says LibModel.ENOMETA "No metadata in .so" /\
  says LibModel.ESTATE "State update failure" /\ says LibModel.ENOTAPPLIED "Patch not applied" /\ says LibModel.EDEPEND "Dependency failure" /\
  says LibModel.ENOADDRESS "Address read error" /\ says LibModel.EAPPLIED "Patch already applied" /\ says LibModel.ENOTARGETLIB "Target library not loaded" /\
  says LibModel.EHOOKNOTRUN "libpulp.so hook routine not run" /\ says X86Model.ENOPATCHABLE "Function is not livepatchable" /\
  says TrModel.EWILDNOMATCH "No file matched wildcard" /\ says LibModel.EUSRBLOCKED "Livepatching blocked by user request" /\
  says InsnQModel.EOLDLIBPULP "Libpulp version is too old" /\ says IntrModel.EOLDLIBPULP "Libpulp version is too old" /\
  says OptModel.EINITFAIL "Libpulp initialization failure" /\ says LibModel.ENOPATCH "No patches installed" /\
  says InsnQModel.EINSNQ "Instruction queue in inconsistent state" /\ says InsnQModel.EOLDULP "ULP tool is too old" /\ says TrModel.EOLDULP "ULP tool is too old" /\
  says LibModel.EDLOPEN "Failure in dlopen".
Proof. intros strerror says. repeat split; vm_compute; reflexivity. Qed.
Print Assumptions C45_codes_have_their_messages.

(** The other codes are Linux errno values (asm-generic/errno-base.h, errno.h), whose messages are the C library's, and 0 is success. *)
Theorem C45_errno_codes : forall strerror : Z -> list Z,
  (LibModel.ENONE = 0 /\ RetryModel.EPERM = 1 /\ ElfModel.ENOENT = 2 /\ PostModel.ENOENT = 2 /\ TrModel.ESRCH = 3 /\ RetryModel.ESRCH = 3 /\ RetryModel.EIO = 5 /\
   LibModel.EAGAIN = 11 /\ IntrModel.EAGAIN = 11 /\ MetaModel.ENOMEM = 12 /\ ItpModel.ENOMEM = 12 /\ PtModel.EFAULT = 14 /\ RetryModel.EBUSY = 16 /\
   ElfModel.EINVAL = 22 /\ IntrModel.EINVAL = 22 /\ ItpModel.EINVAL = 22 /\ PostModel.EINVAL = 22 /\ RetryModel.EINVAL = 22 /\ PtModel.ETIME = 62 /\ LibModel.EOVERFLOW = 75) /\
  (forall e, In e [LibModel.ENONE; RetryModel.EPERM; ElfModel.ENOENT; TrModel.ESRCH; RetryModel.EIO; LibModel.EAGAIN; MetaModel.ENOMEM; PtModel.EFAULT; RetryModel.EBUSY;
     ElfModel.EINVAL; PtModel.ETIME; LibModel.EOVERFLOW] -> libpulp_strerror strerror e = strerror e).
Proof.
  intros strerror. split; [repeat split; vm_compute; reflexivity|]. intros e H. cbn [In] in H. unfold libpulp_strerror.
  repeat (destruct H as [<-|H]; [reflexivity|]). destruct H.
Qed.
Print Assumptions C45_errno_codes.

(** Such a case: an unknown metadata type is answered with a code whose message is about the file. *)
Example C45_codes_case : MetaModel.EINVALIDULP = 266 /\ libpulp_strerror (fun _ => []) 266 = zs "Invalid .ulp file" /\ LibModel.EAGAIN <> LibModel.EAPPLIED.
Proof. vm_compute. repeat split; discriminate. Qed.
