*.vo
*.vok
*.vos
*.glob
.*.aux
*.aux
.lia.cache
.nra.cache
Makefile
Makefile.conf
.Makefile.d
