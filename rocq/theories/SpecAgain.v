(* SpecAgain.v -- vocabulary for recovering after any defined history (C115): that of C91 and C113. *)
From Verif Require Export SpecRecover SpecExact.
