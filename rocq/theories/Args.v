(** Model of main and serial_port_open of examples/sml_server.c: the command line
    and the settings of the serial port. *)
From Verif Require Import Base Buf Number OctetString Boolean Value Time SList Tree Bodies Message File Transport Server ServerMain.

(** *** getopt *)
(** getopt(3) with an option string that starts with '+' and has no arguments
    (sml_server.c:161: "+hsv"), as POSIX describes it: [rest] are the arguments
    not looked at, [letters] the letters left of the argument being read.  When
    it returns -1 (here None), argv[optind] is the first of [rest].  Its messages
    to stderr are not modelled. *)
Record scan : Type := mkScan { rest : list (list Z); letters : list Z }.
Definition known (c : Z) : bool := existsb (Z.eqb c) [104; 115; 118]. (* h, s, v *)
Definition option_of (c : Z) : Z := if known c then c else 63. (* '?' *)
Definition getopt (st : scan) : option Z * scan :=
  match letters st with
  | c :: t => (Some (option_of c), mkScan (rest st) t)
  | [] =>
      match rest st with
      | [] => (None, st)
      | a :: r =>
          match a with
          | [] => (None, st)
          | [x] => (None, st)                                (* also "-" *)
          | x :: c :: t =>
              if negb (x =? 45) then (None, st)
              else if (c =? 45) && (match t with [] => true | _ => false end) then (None, mkScan r [])   (* "--" *)
              else (Some (option_of c), mkScan r t)
          end
      end
  end.

(** *** main *)
(** What main prints: the usage text of lines 164-168, line 179, line 188, and
    what the receiver prints.  The argument is argv[0]. *)
Inductive console : Type :=
| CUsage (prog : list Z)
| CUseHelp (prog : list Z)
| CMismatch (prog : list Z)
| COut (o : output).

(** sml_server.c:161-185, the while loop: either exit with a code after printing
    something, or the flags and the remaining arguments *)
Inductive scanned : Type :=
| SExit (text : console) (code : Z)
| SDone (vflag sflag : bool) (args : list (list Z)).
Fixpoint options_loop (fuel : nat) (prog : list Z) (vflag sflag : bool) (st : scan) : outcome scanned :=
  match fuel with
  | O => NoFuel
  | S fuel' =>
      match getopt st with
      | (None, st') => Ret (SDone vflag sflag (rest st'))
      | (Some c, st') =>
          if c =? 104 then Ret (SExit (CUsage prog) 0)
          else if c =? 115 then options_loop fuel' prog vflag true st'
          else if c =? 118 then options_loop fuel' prog true sflag st'
          else if c =? 63 then Ret (SExit (CUseHelp prog) 1)
          else options_loop fuel' prog vflag sflag st'
      end
  end.
Definition args_size (args : list (list Z)) : nat := list_sum (map (@length Z) args).
Definition scan_options (prog : list Z) (args : list (list Z)) : outcome scanned :=
  options_loop (S (args_size args)) prog false false (mkScan args []).

Section WithHost.
Context {H : Host}.

(** serial_port_open, sml_server.c:44-60 and 83: [stdin] is what descriptor 0
    delivers, [open_device] the answer of open(2), None if it fails. *)
Definition serial_port_open (open_device : list Z -> option fd) (stdin : fd) (device : list Z) : option fd :=
  match device with
  | [45] => Some stdin      (* "-" *)
  | _ => open_device device
  end.

(** main, sml_server.c:156-206, for argv = prog :: args: what is printed and the
    exit status.  That the program ends when the listen loop does is part of
    [sml_server]. *)
Definition server_main (open_device : list Z -> option fd) (stdin : fd) (prog : list Z) (args : list (list Z)) : outcome (list console * Z) :=
  obind (scan_options prog args) (fun r =>
  match r with
  | SExit text code => Ret ([text], code)
  | SDone vflag sflag [device] =>
      match serial_port_open open_device stdin device with
      | None => Ret ([], 1)
      | Some d => obind (sml_server vflag sflag d) (fun x => Ret (map COut (fst x), 0))
      end
  | SDone _ _ _ => Ret ([CMismatch prog], 1)
  end).

End WithHost.

(** *** Settings of the serial port *)
(** The flag constants of <termios.h> and <sys/ioctl.h>, which differ between
    systems, and the settings of a port (struct termios and the modem bits). *)
Record constants : Type := mkConstants {
  k_IGNBRK : Z; k_BRKINT : Z; k_PARMRK : Z; k_ISTRIP : Z; k_INLCR : Z; k_IGNCR : Z; k_ICRNL : Z; k_IXON : Z;
  k_OPOST : Z; k_ECHO : Z; k_ECHONL : Z; k_ICANON : Z; k_ISIG : Z; k_IEXTEN : Z;
  k_CSIZE : Z; k_PARENB : Z; k_PARODD : Z; k_CSTOPB : Z; k_CS8 : Z; k_B9600 : Z; k_TIOCM_RTS : Z }.
Record port : Type := mkPort { c_iflag : Z; c_oflag : Z; c_lflag : Z; c_cflag : Z; ispeed : Z; ospeed : Z; modem : Z }.
Definition clear (x mask : Z) : Z := Z.ldiff x mask. (* x & ~mask *)
(** sml_server.c:62-82.  The two speeds are kept apart from the flags (on Linux
    they are bits of c_cflag outside of those named here). *)
Definition setup_port (k : constants) (p : port) : port :=
  mkPort
    (clear (c_iflag p) (Z.lor (k_IGNBRK k) (Z.lor (k_BRKINT k) (Z.lor (k_PARMRK k) (Z.lor (k_ISTRIP k) (Z.lor (k_INLCR k) (Z.lor (k_IGNCR k) (Z.lor (k_ICRNL k) (k_IXON k)))))))))
    (clear (c_oflag p) (k_OPOST k))
    (clear (c_lflag p) (Z.lor (k_ECHO k) (Z.lor (k_ECHONL k) (Z.lor (k_ICANON k) (Z.lor (k_ISIG k) (k_IEXTEN k))))))
    (Z.lor (clear (c_cflag p) (Z.lor (k_CSIZE k) (Z.lor (k_PARENB k) (Z.lor (k_PARODD k) (k_CSTOPB k))))) (k_CS8 k))
    (k_B9600 k) (k_B9600 k)
    (Z.lor (modem p) (k_TIOCM_RTS k)).
