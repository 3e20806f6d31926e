#!/usr/bin/env python3
"""Turn the unit tests of /repo (read as text) into Coq examples.

Every test that parses a message and compares its String()/Reserved()/Hex()/
length/type with a literal becomes an Example about the model, checked by
computation.  Output: rocq/theories/Golden.v
"""
import glob, re, os

OUT = os.path.join(os.path.dirname(__file__), "..", "rocq", "theories", "Golden.v")

HEAD = '''(** * Golden: the unit tests of /repo, replayed against the model.

    Generated by tools/gen_golden.py from the *_test.go files (read as text; the
    Go code is never run).  Each Example evaluates the model on the bytes of a unit
    test and compares with the expected text of that test.  This ties the model,
    including the formatting library, to the behaviour of the code. *)

From Coq Require Import List NArith Bool String Ascii.
From Verif Require Import GoBase GoFmt ClcModel LlcModel RoceModel Samples.
Import ListNotations.
Local Open Scope string_scope.

Definition run_clc (bs : list byte) : option (N * string * string * string) :=
  match NewMessage (mem1 bs) (slice1 bs) with
  | ([], Done (Some msg, len)) =>
    match Message_Parse (mem1 bs) msg (slice1 bs) with
    | ([], Done msg) =>
      Some (len, Message_String msg, Message_Reserved msg, Message_Dump (mem1 bs) msg)
    | _ => None
    end
  | _ => None
  end.

Definition run {A} (parse : mem -> slice -> M A) (bs : list byte) : option A :=
  match parse (mem1 bs) (slice1 bs) with ([], Done a) => Some a | _ => None end.

(** a parser of one message type, as an llc.Message *)
Definition as_llc {A} (wrap : A -> LLCMessage) (parse : mem -> slice -> M A)
  : mem -> slice -> M LLCMessage :=
  fun m s => let* a := parse m s in ret (wrap a).

Definition show_llc (msg : LLCMessage) := (LLC_String msg, LLC_Reserved msg, LLC_Hex msg, LLC_GetType msg).

'''

def coqstr(s):
    parts = s.split("\n")
    lit = ['"%s"' % p.replace('"', '""') for p in parts]
    return "(" + " ++ nl ++ ".join(lit) + ")"

STR = r'"(?:[^"\\]|\\.)*"'
def evalexpr(e, env):
    e = re.sub(r'//[^\n]*', '', e)
    out = ""
    for tok in re.findall(STR + r'|[A-Za-z_]\w*', e):
        if tok.startswith('"'):
            out += eval(tok)
        else:
            if tok not in env:
                return None
            out += env[tok]
    return out

CONSTS = {"TypeConfirmLink": "TypeConfirmLink"}
LLCWRAP = {"ParseConfirm": "LConfirm", "ParseAddLink": "LAddLink",
  "ParseAddLinkCont": "LAddLinkCont", "ParseDeleteLink": "LDeleteLink",
  "ParseConfirmRKey": "LConfirmRKey", "ParseConfirmRKeyCont": "LConfirmRKeyCont",
  "parseDeleteRKey": "LDeleteRKey", "ParseTestLink": "LTestLink", "ParseCDC": "LCDC",
  "ParseOther": "LOther"}

def main():
    out = [HEAD]
    n = 0
    for path in sorted(glob.glob("/repo/pkg/*/*_test.go")):
        if "/http/" in path or "/socket/" in path:
            continue
        src = open(path).read()
        rel = path[len("/repo/"):]
        for m in re.finditer(r'^func (Test\w+)\(t \*testing\.T\) \{\n(.*?)^\}', src, re.S | re.M):
            name, body = m.group(1), m.group(2)
            line = src[:m.start()].count("\n") + 1
            # join continued lines
            env, res, parse, data, typ, ln = {}, {}, None, None, None, None
            stmts, cur = [], ""
            for l in body.split("\n"):
                l = re.sub(r'^\s*//.*$', '', l)
                if not l.strip():
                    continue
                cur = (cur + " " + l.strip()).strip()
                if cur.endswith(("+", ",")) :
                    continue
                stmts.append(cur); cur = ""
            for s in stmts:
                a = re.match(r'(\w+)\s*:?=\s*((?:' + STR + r'|\w+|\s|\+)+)$', s)
                if a:
                    v = evalexpr(a.group(2), env)
                    if v is not None:
                        env[a.group(1)] = v
                d = re.match(r'(\w+), err :?= hex\.DecodeString\((.*)\)$', s)
                if d:
                    ids = re.findall(r'\w+', d.group(2))
                    var = [i for i in ids if i in env][0]
                    data = re.sub(r'\s', '', env[var])
                p = re.match(r'\w+ := (\w+)\(bytes\)$', s)
                if p: parse = p.group(1)
                if "NewMessage(" in s: parse = "NewMessage"
                g = re.match(r'got :?= \w+\.(String|Reserved|Hex)\(\)$', s)
                if g: res[g.group(1)] = env["want"]
                t = re.match(r'wantType := (\w+)$', s)
                if t: typ = t.group(1)
                q = re.match(r'if \w+Len != (\w+) \{', s)
                if q: ln = q.group(1)
            if parse is None:
                continue
            n += 1
            out.append("(** %s:%d %s *)\n" % (rel, line, name))
            ex = "golden_%s" % name
            if parse == "NewMessage":
                lnc = ln if not ln.isdigit() else ln + "%N"
                out.append('Example %s :\n  match run_clc (hexs "%s") with\n'
                  '  | Some (len, s, r, _) =>\n    len = %s /\\ s = %s /\\ r = %s\n  | None => False\n  end.\n'
                  'Proof. vm_compute. repeat split. Qed.\n\n' % (ex, data, lnc, coqstr(res["String"]), coqstr(res["Reserved"])))
            elif parse in LLCWRAP:
                out.append('Example %s :\n  option_map show_llc (run (as_llc %s %s) (hexs "%s"))\n'
                  '  = Some (%s, %s, %s, %s).\nProof. vm_compute. reflexivity. Qed.\n\n'
                  % (ex, LLCWRAP[parse], parse, data, coqstr(res["String"]), coqstr(res["Reserved"]), coqstr(res["Hex"]), typ))
            elif parse == "ParseBTH":
                out.append('Example %s :\n  option_map (fun b => (BTH_String b, BTH_Reserved b, BTH_Hex b, BTH_GetType b))\n    (run ParseBTH (hexs "%s"))\n'
                  '  = Some (%s, %s, %s, %s).\nProof. vm_compute. reflexivity. Qed.\n\n'
                  % (ex, data, coqstr(res["String"]), coqstr(res["Reserved"]), coqstr(res["Hex"]), typ))
            elif parse == "ParseGRH":
                out.append('Example %s :\n  option_map (fun g => (GRH_String (fun _ => "?") g, GRH_Reserved (fun _ => "?") g, GRH_Hex g, GRH_GetType g))\n    (run ParseGRH (hexs "%s"))\n'
                  '  = Some (%s, %s, %s, %s).\nProof. vm_compute. reflexivity. Qed.\n\n'
                  % (ex, data, coqstr(res["String"]), coqstr(res["Reserved"]), coqstr(res["Hex"]), typ))
            else:
                raise SystemExit("unknown parser " + parse)
    out.append('''(** pkg/clc/clc_proposal_v2_test.go:10 TestEIDString (bytes written out by hand) *)
Example golden_TestEIDString :
  EID_String (zeros 32) = "" /\\
  EID_String (repeat x31 8 ++ zeros 24)%list = "11111111" /\\
  EID_String (repeat x31 32) = "11111111111111111111111111111111" /\\
  EID_String (repeat x31 8 ++ repeat x20 24)%list = "11111111".
Proof. vm_compute. repeat split. Qed.

(** pkg/clc/tcp_option_test.go:9 TestCheckSMCOption (by hand) *)
Example golden_TestCheckSMCOption :
  CheckSMCOption [] = false /\\
  CheckSMCOption [{| OptionType := 254; OptionLength := 6; OptionData := SMCREyecatcher |}] = true.
Proof. vm_compute. repeat split. Qed.
''')
    open(OUT, "w").write("".join(out))
    print(n, "tests")
main()
