#!/usr/bin/env python3
"""Write rocq/theories/Data_*.v from the generated tables of the repository (read as text).

usage: gen_tables.py [repo [outdir]]
"""
import os
import re
import sys

REPO = sys.argv[1] if len(sys.argv) > 1 else "/repo"
HERE = os.path.dirname(os.path.abspath(__file__))
OUT = sys.argv[2] if len(sys.argv) > 2 else os.path.join(HERE, "..", "rocq", "theories")


def lines(name):
    with open(os.path.join(REPO, name), encoding="utf-8") as f:
        return f.read().split("\n")


def num(s):
    return -int(s[1:], 16) if s.startswith("-") else int(s, 16)


def block(ls, start):
    """Lines of the top-level value whose first line matches [start], with the 1-based line number of each."""
    a = next(i for i, l in enumerate(ls) if re.match(r"\t" + start, l))
    b = next(i for i in range(a + 1, len(ls)) if re.match(r"\t?[})]", ls[i]))
    return [(i + 1, ls[i]) for i in range(a, b + 1)]


def tuples(ls, name, fields):
    out = []
    for n, l in ls:
        m = re.search(name + r"\{(.*)\}", l)
        if m:
            d = dict((k.strip(), num(v.strip())) for k, v in (kv.split(":") for kv in m.group(1).split(",")))
            assert set(d) == set(fields), (n, l)
            out.append([d[f] for f in fields])
        else:
            assert name + "{" not in l or l.rstrip().endswith("{"), (n, l)
    return out


def regs(ls):
    out = []
    for n, l in ls:
        m = re.search(r"regexp\.MustCompile\(`(.*)`\),?\s*$", l)
        if m:
            out.append(m.group(1))
        else:
            assert "MustCompile" not in l, (n, l)
    return out


def data(ls):
    b = bytearray()
    for _, l in ls:
        for x in re.findall(r"\b0x([0-9a-f]{2})\b", l):
            b.append(int(x, 16))
    return bytes(b)


def classes(ls, name, fields):
    """A table of tables: every inner table starts with a line holding only '{'."""
    out = []
    for n, l in ls:
        if l.strip() == "{":
            out.append([])
        elif name + "{" in l and not l.rstrip().endswith("{"):
            out[-1] += tuples([(n, l)], name, fields)
    return out


def q(b):
    """A Coq string literal."""
    s = b.decode("utf-8") if isinstance(b, bytes) else b
    assert "\n" not in s
    return '"' + s.replace('"', '""') + '"'


def hx(n):
    return hex(n)


def z(n):
    return "(%d)" % n if n < 0 else "%d" % n


def chunks(l, n):
    return [l[i:i + n] for i in range(0, len(l), n)]


def emit_list(f, name, typ, rows, comment, n=200):
    """Definition [name] : list typ, in chunks."""
    cs = chunks(rows, n)
    for i, c in enumerate(cs):
        f.write("Definition %s_%d : list %s := [\n  %s\n].\n" % (name, i, typ, ";\n  ".join(c)))
    f.write("(** %s *)\nDefinition %s : list %s :=\n  concat [%s].\n\n" %
            (comment, name, typ, "; ".join("%s_%d" % (name, i) for i in range(len(cs)))))


def utf8_chunks(b, n):
    out, i = [], 0
    while i < len(b):
        j = min(len(b), i + n)
        while j < len(b) and b[j] & 0xC0 == 0x80:
            j += 1
        out.append(b[i:j])
        i = j
    return out


def emit_bytes(f, name, b, comment):
    cs = utf8_chunks(b, 1000)
    for i, c in enumerate(cs):
        f.write("Definition %s_%d : blob := %s.\n" % (name, i, q(c)))
    f.write("(** %s *)\nDefinition %s : bytes :=\n  concat (map unblob [%s]).\n\n" %
            (comment, name, "; ".join("%s_%d" % (name, i) for i in range(len(cs)))))


def cite(name, ls):
    return "%s:%d-%d" % (name, ls[0][0], ls[-1][0])


def header(what):
    return ("(** %s  Written by tools/gen_tables.py from the sources; do not edit. *)\n"
            "From Verif Require Import Model_Base Model_Blob Model_Ctx.\nOpen Scope N_scope.\nOpen Scope blob_scope.\n\n" % what)


def open_out(name, what):
    f = open(os.path.join(OUT, name), "w", encoding="utf-8")
    f.write(header(what))
    return f


# client
cl = lines("client_repo.go")
CT = ["matchRI", "match64", "browser64", "version64", "browserVI", "engine64", "engineFI", "url64", "type64"]
b_idx, b_re, b_ef, b_ev, b_evre, b_buf = (block(cl, s) for s in
                                          ("__cr_idx ", "__cr_re ", "__cr_ef ", "__cr_ev ", "__cr_evre ", "__cr_buf "))
cr_idx = classes(b_idx, "clientTuple", CT)
cr_re, cr_evre, cr_buf = regs(b_re), regs(b_evre), data(b_buf)
cr_ev = [(num(a), num(b)) for a, b in re.findall(r"(0x[0-9a-f]+):\s*(0x[0-9a-f]+),", "\n".join(l for _, l in b_ev))]
cr_ef = []
for n, l in b_ef:
    t = l.strip()
    m = re.match(r'if s >= "([^"]*)" \{$', t)
    r = re.match(r"return (0x[0-9a-f]+)$", t)
    if t.startswith("func("):
        cr_ef.append([[], None])
        cond = None
    elif m:
        cond = m.group(1)
    elif r and cond is not None:
        cr_ef[-1][0].append((cond, num(r.group(1))))
        cond = None
    elif r:
        cr_ef[-1][1] = num(r.group(1))
    else:
        assert t in ("}", "},") or t.startswith("__cr_ef"), (n, l)
with open_out("Data_Client.v", "The client tables.") as f:
    for i, c in enumerate(cr_idx):
        rows = ["mkClient %s" % " ".join("(%s)%%Z" % r[k] if CT[k] in ("matchRI", "browserVI", "engineFI") else hx(r[k])
                                         for k in range(9)) for r in c]
        emit_list(f, "d_cr_idx%d" % i, "clientTuple", rows, "%s, class %d." % (cite("client_repo.go", b_idx), i))
    f.write("Definition d_cr_idx : list (list clientTuple) := [%s].\n\n" %
            "; ".join("d_cr_idx%d" % i for i in range(len(cr_idx))))
    emit_list(f, "d_cr_re", "blob", [q(x) for x in cr_re], cite("client_repo.go", b_re) + ".")
    rows = ["([%s], %s)" % ("; ".join("(unblob %s, %s)" % (q(a), hx(b)) for a, b in ts), hx(d)) for ts, d in cr_ef]
    emit_list(f, "d_cr_ef", "engineFn", rows, cite("client_repo.go", b_ef) + ".")
    emit_list(f, "d_cr_ev", "(N * Z)", ["(%s, %d%%Z)" % (hx(a), b) for a, b in cr_ev], cite("client_repo.go", b_ev) + ".")
    emit_list(f, "d_cr_evre", "blob", [q(x) for x in cr_evre], cite("client_repo.go", b_evre) + ".")
    emit_bytes(f, "d_cr_buf", cr_buf, cite("client_repo.go", b_buf) + ".")

# os, vendor, hint
ol = lines("os_repo.go")
OT = ["name64", "nameSI", "matchRI", "match64", "versionSI", "version64", "versions64"]
OV = ["matchRI", "match64", "versionSI", "version64"]
o_os, o_ov, o_re, o_buf = (block(ol, s) for s in ("__or_os ", "__or_ov ", "__or_re ", "__or_buf "))
or_os, or_ov, or_re, or_buf = tuples(o_os, "osTuple", OT), tuples(o_ov, "osVersionTuple", OV), regs(o_re), data(o_buf)
vl = lines("vendor_repo.go")
v_idx, v_re, v_buf = (block(vl, s) for s in ("__vr_idx ", "__vr_re ", "__vr_buf "))
vr_idx, vr_re, vr_buf = tuples(v_idx, "vendorTuple", ["brand64", "range64"]), regs(v_re), data(v_buf)
hl = lines("hint_repo.go")
h_idx, h_buf = (block(hl, s) for s in ("__hr_idx ", "__hr_buf "))
hr_idx = [(num(a), num(b)) for a, b in re.findall(r"(0x[0-9a-f]+):\s*(0x[0-9a-f]+),", "\n".join(l for _, l in h_idx))]
hr_buf = data(h_buf)


def row(con, fields, r):
    return con + " " + " ".join("(%d)%%Z" % v if k.endswith("I") else hx(v) for k, v in zip(fields, r))


with open_out("Data_OS.v", "The operating system, vendor and hint tables.") as f:
    emit_list(f, "d_or_os", "osTuple", [row("mkOS", OT, r) for r in or_os], cite("os_repo.go", o_os) + ".")
    emit_list(f, "d_or_ov", "osVersionTuple", [row("mkOV", OV, r) for r in or_ov], cite("os_repo.go", o_ov) + ".")
    emit_list(f, "d_or_re", "blob", [q(x) for x in or_re], cite("os_repo.go", o_re) + ".")
    emit_bytes(f, "d_or_buf", or_buf, cite("os_repo.go", o_buf) + ".")
    emit_list(f, "d_vr_idx", "vendorTuple", [row("mkVendor", ["b", "r"], r) for r in vr_idx], cite("vendor_repo.go", v_idx) + ".")
    emit_list(f, "d_vr_re", "blob", [q(x) for x in vr_re], cite("vendor_repo.go", v_re) + ".")
    emit_bytes(f, "d_vr_buf", vr_buf, cite("vendor_repo.go", v_buf) + ".")
    emit_list(f, "d_hr_idx", "(N * N)", ["(%s, %s)" % (hx(a), hx(b)) for a, b in hr_idx], cite("hint_repo.go", h_idx) + ".")
    emit_bytes(f, "d_hr_buf", hr_buf, cite("hint_repo.go", h_buf) + ".")

# device
dl = lines("device_repo.go")
DT = ["type64", "brand64", "matchRI", "match64", "modelSI", "models64"]
MT = ["type64", "matchRI", "match64", "model64"]
d_idx, d_dm, d_re, d_buf = (block(dl, s) for s in ("__dr_idx ", "__dr_dm ", "__dr_re ", "__dr_buf "))
dr_idx = classes(d_idx, "deviceTuple", DT)
dr_dm, dr_re, dr_buf = tuples(d_dm, "modelTuple", MT), regs(d_re), data(d_buf)
with open_out("Data_Device.v", "The device entries and the buffer they refer to.") as f:
    for i, c in enumerate(dr_idx):
        emit_list(f, "d_dr_idx%d" % i, "deviceTuple", [row("mkDevice", DT, r) for r in c],
                  "%s, class %d." % (cite("device_repo.go", d_idx), i))
    f.write("Definition d_dr_idx : list (list deviceTuple) := [%s].\n\n" %
            "; ".join("d_dr_idx%d" % i for i in range(len(dr_idx))))
    emit_bytes(f, "d_dr_buf", dr_buf, cite("device_repo.go", d_buf) + ".")
with open_out("Data_Model.v", "The device models.") as f:
    emit_list(f, "d_dr_dm", "modelTuple", [row("mkModel", MT, r) for r in dr_dm], cite("device_repo.go", d_dm) + ".")
half = len(dr_re) // 2
for k, part in enumerate((dr_re[:half], dr_re[half:])):
    with open_out("Data_DeviceRe%d.v" % k, "The device patterns (part %d of 2)." % (k + 1)) as f:
        emit_list(f, "d_dr_re%d" % k, "blob", [q(x) for x in part], cite("device_repo.go", d_re) + ".")

print([len(c) for c in cr_idx], len(cr_re), len(cr_ef), len(cr_ev), len(cr_evre), len(cr_buf), len(or_os), len(or_ov),
      len(or_re), len(or_buf), [len(c) for c in dr_idx], len(dr_dm), len(dr_re), len(dr_buf), len(vr_idx), len(vr_re),
      len(vr_buf), len(hr_idx), len(hr_buf))
