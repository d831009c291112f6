*.vo
*.vok
*.vos
*.glob
*.aux
.*.aux
.lia.cache
.nia.cache
.nra.cache
.lra.cache
.Makefile.d
rocq/Makefile
rocq/Makefile.conf
*.d
