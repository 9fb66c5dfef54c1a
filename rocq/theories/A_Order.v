(** Nothing is proved here. Requiring the files at the end of the longest chains
    of dependencies in the first file of the alphabet makes a parallel build
    start with those chains. *)
From Verif Require P_LinReg6 P_ProgramMain P_OutdirMain P_OrderMain P_JsonMain P_AutoMain P_StrconvMain.
