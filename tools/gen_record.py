#!/usr/bin/env python3
"""Prints a Coq record with its field setters."""
def gen(name, ctor, fields, prefix):
    out = []
    out.append("Record %s : Type := %s {" % (name, ctor))
    out.append(";\n".join("  %s : %s" % f for f in fields))
    out.append("}.\n")
    v = prefix
    for i, (f, t) in enumerate(fields):
        args = " ".join(("x" if j == i else "(%s %s)" % (g, v)) for j, (g, _) in enumerate(fields))
        out.append("Definition set_%s (x : %s) (%s : %s) : %s :=\n  %s %s." % (f, t, v, name, name, ctor, args))
    return "\n".join(out) + "\n"
if __name__ == "__main__":
    import sys
    AG = [("ag_id","aid"),("ag_kind","kind"),("ag_time","ext"),("ag_blocked","Z"),
          ("ag_has","bool"),("ag_had","bool"),("ag_stats","list (Z * Z * Z)"),("ag_net","list netrow")]
    Q = [("q_cfg","qcfg"),("q_servers","ext"),("q_departed","Z"),("q_nsys","Z"),("q_data","qdata"),
         ("q_line","list agent"),("q_collect","bool"),("q_arr","list item"),("q_dep","list item"),
         ("q_narr","Z"),("q_oarr","Z"),("q_total","Z"),("q_active","bool"),("q_now","ext"),
         ("q_time","ext"),("q_next_ct","ext"),("q_blocked","Z"),("q_over","Z"),("q_net","list netrow"),
         ("q_ia","nat"),("q_is","nat")]
    if sys.argv[1] == "agent": print(gen("agent","mkAgent",AG,"a"))
    if sys.argv[1] == "queue": print(gen("queue","mkQueue",Q,"q"))
    if sys.argv[1] == "names":
        print(" ".join(["set_"+f for f,_ in AG+Q]+[f for f,_ in AG+Q]))
