*.vo
*.vok
*.vos
*.glob
*.aux
.*.aux
.lia.cache
.nia.cache
.coqdeps.d
.Makefile.d
rocq/Makefile
rocq/Makefile.conf
rocq/.Makefile.d
CoqMakefile*
.nra.cache
.lia.cache
.nia.cache
.csdp.cache
