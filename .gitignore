*.aux
*.cache
*.glob
*.vo
*.vok
*.vos
.*.aux
.Makefile.d
.lia.cache
.nra.cache
Makefile
Makefile.conf
