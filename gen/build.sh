cd /verif/rocq && (echo "-Q theories Verif"; echo; ls theories/*.v) > _CoqProject
coq_makefile -f _CoqProject -o Makefile >/dev/null && timeout 600 make -j4 2>&1 | grep -v "^COQC\|^COQDEP" | tail -${1:-40}
