(** The example program as its user sees it: the bytes on the standard output, the
    lines on stderr and the exit status.  main and serial_port_open of
    examples/sml_server.c (Args.v), with their texts and with the lines that getopt,
    serial_port_open and the listener (ServerReport.v) write to stderr.

    Simplification: the order of what goes to stdout and what goes to stderr is not
    recorded. *)
From Coq Require Import String Ascii.
From Coq Require Import Floats.SpecFloat.
From Verif Require Import Base Buf Number OctetString Boolean Value Time SList Tree Bodies Message File Units Transport Server ServerMain
  Printf ReportModel TransportReport ServerReport Args.
Local Open Scope list_scope.

(** What is written to stderr: by getopt (the text is that of the C library), by
    serial_port_open (sml_server.c:60, "error: open(%s): %s\n"; the second text is that
    of strerror) and by the listener. *)
Inductive told : Type :=
| MInvalid (prog : list Z) (letter : Z)
| MOpen (device : list Z)
| MLine (l : err_line).

(** getopt(3) as in Args.v, with its message: opterr is not changed by the program, and
    the option string does not start with a colon, so that each unknown letter is
    reported. *)
Definition complain (prog : list Z) (c : Z) : list told := if known c then [] else [MInvalid prog c].
Definition m_getopt (prog : list Z) (st : scan) : list told * (option Z * scan) :=
  match letters st with
  | c :: t => (complain prog c, (Some (option_of c), mkScan (rest st) t))
  | [] =>
      match rest st with
      | [] => ([], (None, st))
      | a :: r =>
          match a with
          | [] => ([], (None, st))
          | [x] => ([], (None, st))
          | x :: c :: t =>
              if negb (x =? 45) then ([], (None, st))
              else if (c =? 45) && (match t with [] => true | _ => false end) then ([], (None, mkScan r []))
              else (complain prog c, (Some (option_of c), mkScan r t))
          end
      end
  end.
(** sml_server.c:161-185 *)
Fixpoint m_options_loop (fuel : nat) (prog : list Z) (vflag sflag : bool) (st : scan) : list told * outcome scanned :=
  match fuel with
  | O => ([], NoFuel)
  | S fuel' =>
      match m_getopt prog st with
      | (l, (None, st')) => (l, Ret (SDone vflag sflag (rest st')))
      | (l, (Some c, st')) =>
          if c =? 104 then (l, Ret (SExit (CUsage prog) 0))
          else if c =? 63 then (l, Ret (SExit (CUseHelp prog) 1))
          else
            let '(l', o) := if c =? 115 then m_options_loop fuel' prog vflag true st'
                            else if c =? 118 then m_options_loop fuel' prog true sflag st'
                            else m_options_loop fuel' prog vflag sflag st' in
            (l ++ l', o)
      end
  end.
Definition m_scan_options (prog : list Z) (args : list (list Z)) : list told * outcome scanned :=
  m_options_loop (S (args_size args)) prog false false (mkScan args []).

Section Texts.
(** the value of pow(10, x) for the integer x *)
Variable pow10 : Z -> spec_float.
(** sml_server.c:164-168, 179, 188, and Printf.v *)
Definition console_text (c : console) : list Z :=
  match c with
  | CUsage prog =>
      chars "usage: " ++ prog ++ chars " [-h] [-s] [-v] device" ++ [10] ++
      chars "device - serial device of connected power meter e.g. /dev/cu.usbserial, or - for stdin" ++ [10] ++
      chars "-h - help" ++ [10] ++
      chars "-s - process only one OBIS data stream (single)" ++ [10] ++
      chars "-v - verbose" ++ [10]
  | CUseHelp prog => chars "Use " ++ prog ++ chars " -h for help." ++ [10]
  | CMismatch prog => chars "error: Arguments mismatch." ++ [10] ++ chars "Use " ++ prog ++ chars " -h for help." ++ [10]
  | COut o => output_text pow10 o
  end.
Context {H : Host}.
(** main, sml_server.c:156-206: stderr, and stdout and the exit status *)
Definition program (open_device : list Z -> option fd) (stdin : fd) (prog : list Z) (args : list (list Z)) : list told * outcome (list Z * Z) :=
  match m_scan_options prog args with
  | (l, Ret (SExit text code)) => (l, Ret (console_text text, code))
  | (l, Ret (SDone vflag sflag [device])) =>
      match serial_port_open open_device stdin device with
      | None => (l ++ [MOpen device], Ret ([], 1))
      | Some d =>
          let '(l', o) := e_server vflag sflag d in
          (l ++ map MLine l', obind o (fun x => Ret (screen pow10 (fst x), 0)))
      end
  | (l, Ret (SDone _ _ _)) => (l, Ret (console_text (CMismatch prog), 1))
  | (l, Fault f) => (l, Fault f)
  | (l, NoFuel) => (l, NoFuel)
  end.
End Texts.
