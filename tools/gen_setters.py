"""Prints setter definitions for a record: gen_setters.py ctor recordname field:type ..."""
import sys
ctor, rec = sys.argv[1:3]
fields = [f.split(':',1) for f in sys.argv[3:]]
for i,(f,t) in enumerate(fields):
    args = ' '.join('v' if j==i else f'({g} s)' for j,(g,_) in enumerate(fields))
    print(f'Definition set_{f} (v : {t}) (s : {rec}) : {rec} :=\n  {ctor} {args}.')
print(f'Ltac {rec}_simpl := cbn [{" ".join(f for f,_ in fields)} {" ".join("set_"+f for f,_ in fields)}].')
print(f'Ltac {rec}_simpl_in H := cbn [{" ".join(f for f,_ in fields)} {" ".join("set_"+f for f,_ in fields)}] in H.')
