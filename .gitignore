*.vo
*.vok
*.vos
*.glob
.*.aux
.nra.cache
.nia.cache
.lia.cache
Makefile
Makefile.conf
.Makefile.d
*.d
