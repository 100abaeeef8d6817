*.vo
*.vok
*.vos
*.glob
*.aux
.*.aux
Makefile*
.Makefile*
.lia.cache
.nia.cache
.CoqMakefile*
